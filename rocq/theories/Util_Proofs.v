(** Proofs about the small utilities. *)
From Coq Require Import String Permutation.
From Verif Require Import Base Lists Cstr_Model Util_Model Util_Spec.

(** ** strings *)

Lemma streq_eq a b : streq a b = true <-> a = b.
Proof.
  revert b; induction a as [|x a IH]; intros [|y b]; cbn; try (split; congruence).
  rewrite andb_true_iff, IH, Z.eqb_eq. split; [intros [-> ->]; auto|intros E; inversion E; auto].
Qed.

Lemma streq_refl a : streq a a = true.
Proof. apply streq_eq; auto. Qed.

Lemma inset_In d c : inset d c = true <-> In c d.
Proof.
  unfold inset. rewrite existsb_exists. split.
  - intros (x & H & E). apply Z.eqb_eq in E. subst; auto.
  - intros H. exists c. split; auto. apply Z.eqb_refl.
Qed.

Lemma inset_false d c : inset d c = false <-> ~ In c d.
Proof. rewrite <- inset_In. destruct (inset d c); split; congruence. Qed.

Lemma skip_spec p s :
  exists pre, s = pre ++ skip p s /\ (forall c, In c pre -> p c = true) /\
    match skip p s with [] => True | c :: _ => p c = false end.
Proof.
  induction s as [|c s IH]; cbn.
  - exists []; cbn; repeat split; auto; intros ? [].
  - destruct (p c) eqn:E.
    + destruct IH as (pre & H1 & H2 & H3). exists (c :: pre). cbn.
      split; [congruence|]. split; auto. intros x [<-|H]; auto.
    + exists []. cbn. repeat split; auto; intros ? [].
Qed.

Lemma span_spec p s a b :
  span p s = (a, b) -> s = a ++ b /\ (forall c, In c a -> p c = true) /\
    match b with [] => True | c :: _ => p c = false end.
Proof.
  revert a b; induction s as [|c s IH]; cbn; intros a b H.
  - inversion H; subst; cbn; repeat split; auto; intros ? [].
  - destruct (p c) eqn:E.
    + destruct (span p s) as [a' b'] eqn:Es. inversion H; subst.
      destruct (IH _ _ eq_refl) as (H1 & H2 & H3). cbn. split; [congruence|]. split; auto.
      intros x [<-|Hx]; auto.
    + inversion H; subst. cbn. repeat split; auto; intros ? [].
Qed.

Lemma strtok_none d s : strtok_r d s = None <-> forall c, In c s -> In c d.
Proof.
  unfold strtok_r. destruct (skip_spec (inset d) s) as (pre & E & H & T).
  destruct (skip (inset d) s) as [|c r] eqn:Ek.
  - split; auto. intros _ c Hc. rewrite E, app_nil_r in Hc. apply inset_In; auto.
  - destruct (span _ (c :: r)) as [a b]. split; [discriminate|].
    intros K. exfalso. assert (Hc : In c s) by (rewrite E; apply in_or_app; right; left; auto).
    apply K in Hc. apply inset_In in Hc. congruence.
Qed.

Lemma strtok_some d s t rest :
  strtok_r d s = Some (t, rest) ->
  exists sep, (forall c, In c sep -> In c d) /\ t <> [] /\ (forall c, In c t -> ~ In c d) /\
    ((rest = [] /\ s = sep ++ t) \/ (exists c, In c d /\ s = sep ++ t ++ c :: rest)).
Proof.
  unfold strtok_r. destruct (skip_spec (inset d) s) as (pre & E & H & T).
  destruct (skip (inset d) s) as [|c r] eqn:Ek; [discriminate|].
  destruct (span _ (c :: r)) as [a b] eqn:Es. intros K; inversion K; subst t rest; clear K.
  destruct (span_spec _ _ _ _ Es) as (E2 & H2 & T2).
  exists pre. split; [intros x Hx; apply inset_In; auto|].
  split. { intros ->. cbn in E2. subst b. rewrite T in T2. discriminate. }
  split. { intros x Hx. apply inset_false. specialize (H2 _ Hx). destruct (inset d x); auto; discriminate. }
  destruct b as [|x b].
  - left. split; auto. rewrite app_nil_r in E2. congruence.
  - right. exists x. split; [|congruence].
    apply inset_In. destruct (inset d x); auto; discriminate.
Qed.

Lemma toks_pieces d n s l : toks n d s = Ok l -> pieces d s l.
Proof.
  revert s l; induction n as [|n IH]; intros s l; cbn [toks];
    destruct (strtok_r d s) as [[t rest]|] eqn:E; try discriminate.
  - intros K; inversion K; subst. apply pieces_nil. apply strtok_none; auto.
  - destruct (toks n d rest) as [l'| | |] eqn:El; cbn; try discriminate.
    intros K; inversion K; subst. apply IH in El.
    destruct (strtok_some _ _ _ _ E) as (sep & H1 & H2 & H3 & [[-> ->]|(c & Hc & ->)]).
    + assert (l' = []). { inversion El; subst; auto.
        - destruct sep0; destruct t0; try discriminate; congruence.
        - destruct sep0; destruct t0; discriminate. }
      subst. apply pieces_last; auto.
    + apply pieces_cons; auto.
  - intros K; inversion K; subst. apply pieces_nil. apply strtok_none; auto.
Qed.

Lemma toks_total d n s : (length s <= n)%nat -> exists l, toks n d s = Ok l.
Proof.
  revert s; induction n as [|n IH]; intros s Hs; cbn [toks].
  - destruct s; [|cbn in Hs; lia]. cbn. eauto.
  - destruct (strtok_r d s) as [[t rest]|] eqn:E; [|eauto].
    destruct (strtok_some _ _ _ _ E) as (sep & H1 & H2 & H3 & K).
    assert (0 < length t)%nat by (destruct t; cbn; [congruence|lia]).
    destruct (IH rest) as [l El].
    { destruct K as [[-> ->]|(c & _ & ->)]; rewrite ?app_length in Hs; cbn [length] in *; lia. }
    rewrite El. cbn. eauto.
Qed.

(** The decomposition is unique. *)
Lemma sep_unique d : forall sep sep' t t' : chars,
  (forall c, In c sep -> In c d) -> (forall c, In c sep' -> In c d) ->
  match t with [] => False | c :: _ => ~ In c d end ->
  match t' with [] => False | c :: _ => ~ In c d end ->
  sep ++ t = sep' ++ t' -> sep = sep' /\ t = t'.
Proof.
  induction sep as [|x sep IH]; intros [|y sep'] t t' H H' T T' E; cbn in *; auto.
  - destruct t; [tauto|]. inversion E; subst. exfalso; apply T; apply H'; auto.
  - destruct t'; [tauto|]. inversion E; subst. exfalso; apply T'; apply H; auto.
  - inversion E; subst. destruct (IH sep' t t') as [-> ->]; auto.
Qed.

Lemma tok_unique d : forall t t' r r' : chars,
  (forall c, In c t -> ~ In c d) -> (forall c, In c t' -> ~ In c d) ->
  match r with [] => True | c :: _ => In c d end ->
  match r' with [] => True | c :: _ => In c d end ->
  t ++ r = t' ++ r' -> t = t' /\ r = r'.
Proof.
  induction t as [|x t IH]; intros [|y t'] r r' H H' T T' E; cbn in *; auto.
  - subst. exfalso; eapply H'; eauto.
  - subst. exfalso; eapply H; eauto.
  - inversion E; subst. destruct (IH t' r r') as [-> ->]; auto.
Qed.

Lemma pieces_unique d s l l' : pieces d s l -> pieces d s l' -> l = l'.
Proof.
  intros H. revert l'. induction H as [s H|sep t H H0 H1|sep t c s' l H H0 H1 Hc Hp IH];
    intros l' K; inversion K as [s2 J E|sep2 t2 J J0 J1 E|sep2 t2 c2 s2 l2 J J0 J1 Jc Jp E]; subst; auto.
  - exfalso. destruct t2 as [|x]; [congruence|]. apply (J1 x); cbn; auto.
    apply H. apply in_or_app; cbn; auto.
  - exfalso. destruct t2 as [|x]; [congruence|]. apply (J1 x); cbn; auto.
    apply H. apply in_or_app; cbn; auto.
  - exfalso. destruct t as [|x]; [congruence|]. apply (H1 x); cbn; auto.
    apply J. apply in_or_app; cbn; auto.
  - f_equal. destruct t as [|x t]; [congruence|]. destruct t2 as [|y t2]; [congruence|].
    assert (X : sep2 = sep /\ y :: t2 = x :: t).
    { apply (sep_unique d); auto; cbn; auto. apply J1; cbn; auto. apply H1; cbn; auto. }
    destruct X; congruence.
  - exfalso. destruct t as [|x t]; [congruence|]. destruct t2 as [|y t2]; [congruence|].
    assert (X : sep2 = sep /\ (y :: t2) ++ c2 :: s2 = x :: t).
    { apply (sep_unique d); auto; cbn; auto. apply J1; cbn; auto. apply H1; cbn; auto. }
    destruct X as [_ X]. apply (H1 c2); auto. rewrite <- X. apply in_or_app; cbn; auto.
  - exfalso. destruct t as [|x]; [congruence|]. apply (H1 x); cbn; auto.
    apply J. apply in_or_app; cbn; auto.
  - exfalso. destruct t as [|x t]; [congruence|]. destruct t2 as [|y t2]; [congruence|].
    assert (X : sep2 = sep /\ y :: t2 = (x :: t) ++ c :: s').
    { apply (sep_unique d); auto; cbn; auto. apply J1; cbn; auto. apply H1; cbn; auto. }
    destruct X as [_ X]. apply (J1 c); auto. rewrite X. apply in_or_app; cbn; auto.
  - destruct t as [|x t]; [congruence|]. destruct t2 as [|y t2]; [congruence|].
    assert (X : sep2 = sep /\ (y :: t2) ++ c2 :: s2 = (x :: t) ++ c :: s').
    { apply (sep_unique d); auto; cbn; auto. apply J1; cbn; auto. apply H1; cbn; auto. }
    destruct X as [_ X].
    apply (tok_unique d) in X; cbn; auto. destruct X as [X1 X2].
    inversion X2; subst. f_equal; auto.
Qed.

Lemma trim_trimmed t : trimmed t (trim t).
Proof.
  unfold trim, trimmed. destruct (skip_spec (fun c => c =? 32) t) as (pre & E & H & T).
  exists (length pre). split.
  - rewrite E at 1. f_equal. clear - H. induction pre as [|x pre IH]; cbn; auto.
    f_equal. { specialize (H x (or_introl eq_refl)). lia. }
    apply IH. intros c Hc. apply H; cbn; auto.
  - destruct (skip _ t); cbn; [lia|]. lia.
Qed.

(** C46 *)
Lemma mkargv_spec s d :
  d <> [] ->
  exists l, pieces d s l /\
    match mkargv (Some s) (Some d) with
    | Ok None => l = []
    | Ok (Some args) => l <> [] /\ Forall2 trimmed l args
    | _ => False
    end.
Proof.
  intros Hd. unfold mkargv. destruct s as [|c s].
  - exists []. split; [apply pieces_nil; intros c []|auto].
  - destruct d as [|d0 d]; [congruence|].
    destruct (toks_total (d0 :: d) (length (c :: s)) (c :: s) (le_n _)) as [l E].
    rewrite E. exists l. split; [apply toks_pieces in E; auto|]. cbn [obind].
    destruct l as [|t l]; [reflexivity|].
    replace (zlen (t :: l) =? 0) with false.
    2:{ unfold zlen. cbn [length]. lia. }
    split; [congruence|].
    change (map trim (t :: l)) with (map trim (t :: l)). generalize (t :: l). intros L.
    induction L; cbn; constructor; auto. apply trim_trimmed.
Qed.

(** ** commands *)
Lemma register_acc {F} (l t : list (cmd F)) :
  zlen t + zlen l <= MAX_COMMANDS ->
  fold_left (fun t c => addCmd t (fst c) (snd c)) l t = t ++ l.
Proof.
  revert t; induction l as [|[n f] l IH]; intros t H; cbn [fold_left].
  - rewrite app_nil_r; auto.
  - unfold zlen in H. cbn [length] in H. cbn [fst snd]. unfold addCmd at 2.
    replace (zlen t <? MAX_COMMANDS) with true by (unfold zlen; lia).
    rewrite IH, <- app_assoc; auto. unfold zlen in *. rewrite app_length. cbn. lia.
Qed.

Lemma register_full {F} (l t : list (cmd F)) :
  MAX_COMMANDS <= zlen t ->
  fold_left (fun t c => addCmd t (fst c) (snd c)) l t = t.
Proof.
  revert t; induction l as [|[n f] l IH]; intros t H; cbn [fold_left]; auto.
  unfold addCmd at 2. replace (zlen t <? MAX_COMMANDS) with false by lia. auto.
Qed.

Lemma register_firstn {F} (l : list (cmd F)) :
  register l = firstn (Z.to_nat MAX_COMMANDS) l.
Proof.
  unfold register.
  destruct (Z.le_gt_cases (zlen l) MAX_COMMANDS) as [H|H].
  - rewrite register_acc by (cbn; auto). cbn [app]. rewrite firstn_all2; auto.
    unfold zlen in H. lia.
  - rewrite <- (firstn_skipn (Z.to_nat MAX_COMMANDS) l) at 1. rewrite fold_left_app.
    etransitivity; [apply f_equal; apply (register_acc (firstn (Z.to_nat MAX_COMMANDS) l) [])|].
    + unfold zlen, MAX_COMMANDS in *. cbn [length]. rewrite firstn_length. lia.
    + cbn [app]. apply register_full. unfold zlen, MAX_COMMANDS in *. rewrite firstn_length. lia.
Qed.

Lemma findCmd_in {F} (t : list (cmd F)) n f :
  NoDup (map fst t) -> In (n, f) t -> findCmd t n = Some f.
Proof.
  induction t as [|[m g] t IH]; cbn; [tauto|]. intros Hd [E|H].
  - inversion E; subst. rewrite streq_refl. auto.
  - apply NoDup_cons_iff in Hd. destruct Hd as [Hm Hd].
    destruct (streq n m) eqn:E; auto. apply streq_eq in E. subst. exfalso. apply Hm.
    apply in_map_iff. exists (m, f); auto.
Qed.

Lemma findCmd_none {F} (t : list (cmd F)) n :
  ~ In n (map fst t) -> findCmd t n = None.
Proof.
  induction t as [|[m g] t IH]; cbn; auto. intros H.
  destruct (streq n m) eqn:E; auto. apply streq_eq in E. subst. tauto.
Qed.

Definition plain (n : chars) : Prop := n <> str "-h" /\ n <> str "--help".

Lemma handle_plain {F} (t : list (cmd F)) n args :
  plain n ->
  handleCmd t (n :: args) =
  match findCmd t n with Some f => Call f (n :: args) | None => Unknown end.
Proof.
  intros [H1 H2]. unfold handleCmd.
  destruct (streq n (str "-h")) eqn:E1; [apply streq_eq in E1; congruence|].
  destruct (streq n (str "--help")) eqn:E2; [apply streq_eq in E2; congruence|].
  reflexivity.
Qed.

(** C50, positive *)
Lemma commands_found {F} (l : list (cmd F)) :
  NoDup (map fst l) -> Forall plain (map fst l) -> zlen l <= 20 ->
  (forall n f args, In (n, f) l -> handleCmd (register l) (n :: args) = Call f (n :: args)) /\
  handleCmd (register l) [] = Help (map fst l).
Proof.
  intros Hd Hp Hl. rewrite register_firstn, firstn_all2 by (unfold zlen in Hl; unfold MAX_COMMANDS; lia).
  split; auto. intros n f args Hin. rewrite handle_plain.
  - rewrite (findCmd_in _ _ f); auto.
  - rewrite Forall_forall in Hp. apply Hp. apply in_map_iff. exists (n, f); auto.
Qed.

(** C50, negative: beyond the limit the later ones are lost. *)
Lemma commands_lost {F} (l : list (cmd F)) :
  NoDup (map fst l) -> Forall plain (map fst l) -> 20 < zlen l ->
  exists n f, In (n, f) l /\
    (forall args, handleCmd (register l) (n :: args) = Unknown) /\
    exists names, handleCmd (register l) [] = Help names /\ ~ In n names.
Proof.
  intros Hd Hp Hl. rewrite register_firstn.
  pose proof (firstn_skipn (Z.to_nat MAX_COMMANDS) l) as E.
  destruct (skipn (Z.to_nat MAX_COMMANDS) l) as [|[n f] r] eqn:Es.
  { apply (f_equal (@length _)) in Es. rewrite skipn_length in Es. unfold zlen, MAX_COMMANDS in *.
    cbn [length] in Es. lia. }
  set (t := firstn (Z.to_nat MAX_COMMANDS) l) in *.
  assert (Hn : ~ In n (map fst t)).
  { rewrite <- E, map_app in Hd. cbn [map fst] in Hd. apply NoDup_remove_2 in Hd.
    intros K. apply Hd. apply in_or_app; auto. }
  exists n, f. split; [rewrite <- E; apply in_or_app; cbn; auto|]. split.
  - intros args. rewrite handle_plain, findCmd_none; auto.
    rewrite Forall_forall in Hp. apply Hp. apply in_map_iff. exists (n, f). split; auto.
    rewrite <- E; apply in_or_app; cbn; auto.
  - exists (map fst t). split; auto.
Qed.

Lemma plain_nfqlb : Forall plain nfqlb_names.
Proof. unfold plain. repeat constructor; vm_compute; congruence. Qed.

Lemma nodup_b (l : list chars) :
  (fix f l := match l with [] => true | x :: r => negb (existsb (streq x) r) && f r end) l = true ->
  NoDup l.
Proof.
  induction l as [|x l IH]; intros H; constructor; apply andb_true_iff in H; destruct H as [H1 H2]; auto.
  intros K. apply negb_true_iff in H1.
  assert (X : existsb (streq x) l = true) by (apply existsb_exists; exists x; split; auto; apply streq_refl).
  congruence.
Qed.

Lemma nodup_nfqlb : NoDup nfqlb_names.
Proof. apply nodup_b. vm_compute. reflexivity. Qed.

Lemma nfqlb_lost {F} (l : list (cmd F)) :
  Permutation (map fst l) nfqlb_names ->
  exists n, In n nfqlb_names /\ forall args, handleCmd (register l) (n :: args) = Unknown.
Proof.
  intros P. destruct (commands_lost l) as (n & f & H1 & H2 & _).
  - eapply Permutation_NoDup; [apply Permutation_sym; eauto|apply nodup_nfqlb].
  - rewrite Forall_forall. intros x Hx. pose proof plain_nfqlb as Q. rewrite Forall_forall in Q.
    apply Q. eapply Permutation_in; eauto.
  - apply Permutation_length in P. rewrite map_length in P. unfold zlen. rewrite P. vm_compute. auto.
  - exists n. split; auto. eapply Permutation_in; eauto. apply in_map_iff. exists (n, f); auto.
Qed.

(** ** trace *)
Lemma str2mask_areas t k : In (t, k) areas -> str2mask t = 2 ^ k.
Proof.
  unfold areas. cbn [In]. intros H.
  repeat (destruct H as [H|H]; [inversion H; subst; vm_compute; reflexivity|]). destruct H.
Qed.

Lemma str2mask_unknown t : (forall k, ~ In (t, k) areas) -> str2mask t = 0.
Proof.
  intros H. unfold str2mask, traceEvent. cbn [str2mask_in].
  repeat match goal with
  | |- context [streq t (str ?s)] =>
      destruct (streq t (str s)) eqn:?E; [exfalso; apply streq_eq in E; subst t;
        eapply H; unfold areas; cbn [In]; eauto 20|clear E]
  end. reflexivity.
Qed.

Lemma known_or t : (exists k, In (t, k) areas) \/ (forall k, ~ In (t, k) areas).
Proof.
  unfold areas.
  assert (D : forall l : list (chars * Z), (exists k, In (t, k) l) \/ (forall k, ~ In (t, k) l)).
  { induction l as [|[n k] l IH]; [right; intros k []|].
    destruct (streq t n) eqn:E; [apply streq_eq in E; subst; left; exists k; cbn; auto|].
    destruct IH as [[j Hj]|IH]; [left; exists j; cbn; auto|].
    right. intros j [K|K]; [|eapply IH; eauto]. inversion K; subst. rewrite streq_refl in E. discriminate. }
  apply D.
Qed.

Lemma areas_inj t k k' : In (t, k) areas -> In (t, k') areas -> k = k'.
Proof.
  intros H1 H2. apply str2mask_areas in H1 as E1. apply str2mask_areas in H2 as E2.
  rewrite E1 in E2. apply Z.pow_inj_r in E2; try lia.
  - unfold areas in H1. cbn [In] in H1.
    repeat (destruct H1 as [H1|H1]; [inversion H1; lia|]). destruct H1.
  - unfold areas in H2. cbn [In] in H2.
    repeat (destruct H2 as [H2|H2]; [inversion H2; lia|]). destruct H2.
Qed.

Lemma areas_range t k : In (t, k) areas -> 0 <= k < 7.
Proof.
  unfold areas. cbn [In]. intros H.
  repeat (destruct H as [H|H]; [inversion H; lia|]). destruct H.
Qed.

Lemma fold_bits l : forall m j, 0 <= j ->
  Z.testbit (fold_left (fun m t => Z.lor m (str2mask t)) l m) j = true <->
  Z.testbit m j = true \/ exists t, In t l /\ In (t, j) areas.
Proof.
  induction l as [|t l IH]; intros m j Hj; cbn [fold_left].
  - split; auto. intros [H|(t & [] & _)]; auto.
  - rewrite IH, Z.lor_spec, orb_true_iff by auto.
    assert (B : Z.testbit (str2mask t) j = true <-> In (t, j) areas).
    { destruct (known_or t) as [[k Hk]|Hn].
      - rewrite (str2mask_areas _ _ Hk). pose proof (areas_range _ _ Hk).
        rewrite Z.pow2_bits_eqb by lia. rewrite Z.eqb_eq. split; [intros <-; auto|].
        intros; eapply areas_inj; eauto.
      - rewrite (str2mask_unknown _ Hn), Z.bits_0. split; [discriminate|]. intros H; exfalso; eapply Hn; eauto. }
    rewrite B. cbn [In]. split.
    + intros [[H|H]|(t' & H1 & H2)]; eauto.
    + intros [H|(t' & [<-|H1] & H2)]; eauto.
Qed.

(** C54 *)
Lemma trace_union sel :
  exists l m, pieces (str ",") sel l /\ cmdTrace_mask None (Some sel) = Ok m /\
    forall j, 0 <= j -> (Z.testbit m j = true <-> exists t, In t l /\ In (t, j) areas).
Proof.
  destruct (toks_total (str ",") (length sel) sel (le_n _)) as [l E].
  exists l. eexists. split; [eapply toks_pieces; eauto|]. cbn [cmdTrace_mask]. unfold traceSelection.
  rewrite E. cbn [obind]. split; [reflexivity|]. intros j Hj. rewrite fold_bits by auto.
  rewrite Z.bits_0. split; [intros [H|H]; [discriminate|auto]|auto].
Qed.

(** ** ipu *)
Lemma linklocal_ok mac :
  length mac = 6%nat ->
  exists m0 m1 m2 m3 m4 m5, mac = [m0; m1; m2; m3; m4; m5] /\
  linklocal mac = Ok [254; 128; 0; 0; 0; 0; 0; 0; Z.lxor m0 2; m1; m2; 255; 254; m3; m4; m5].
Proof.
  intros H. do 6 (destruct mac as [|? mac]; [discriminate|]). destruct mac; [|discriminate].
  do 6 eexists. split; reflexivity.
Qed.

Lemma linklocal_inj m m' r : linklocal m = Ok r -> linklocal m' = Ok r -> m = m'.
Proof.
  unfold linklocal.
  do 7 (destruct m as [|? m]; try discriminate).
  do 7 (destruct m' as [|? m']; try discriminate).
  intros H1 H2. rewrite <- H2 in H1. inversion H1; subst. f_equal.
  apply (f_equal (fun x => Z.lxor x 2)) in H0.
  rewrite !Z.lxor_assoc, Z.lxor_nilpotent, !Z.lxor_0_r in H0. auto.
Qed.

Lemma lxor2 m : 0 <= m < 256 -> Z.lxor m 2 = if Z.testbit m 1 then m - 2 else m + 2.
Proof.
  intros H.
  assert (G : forallb (fun m => Z.lxor m 2 =? if Z.testbit m 1 then m - 2 else m + 2)
              (map Z.of_nat (seq 0 256)) = true) by (vm_compute; reflexivity).
  rewrite forallb_forall in G. apply Z.eqb_eq. apply G. apply in_map_iff.
  exists (Z.to_nat m). split; [lia|]. apply in_seq. lia.
Qed.

(** *** masks *)
Definition is31 (wrap : bool) (k : Z) : Prop := wrap = true \/ k <> 31.

Lemma shl1 wrap k : 0 <= k <= 31 ->
  sshl wrap 1 k = if k =? 31 then (if wrap then Ok (-2147483648) else UB) else Ok (2 ^ k).
Proof.
  intros H. unfold sshl. replace ((k <? 0) || (32 <=? k)) with false by lia.
  rewrite Z.shiftl_1_l. unfold sint. destruct (k =? 31) eqn:E.
  - apply Z.eqb_eq in E. subst. change (2 ^ 31) with 2147483648. cbn. destruct wrap; reflexivity.
  - assert (2 ^ k <= 2 ^ 30) by (apply Z.pow_le_mono_r; lia). change (2 ^ 30) with 1073741824 in *.
    assert (0 < 2 ^ k) by lia.
    replace ((-2147483648 <=? 2 ^ k) && (2 ^ k <=? 2147483647)) with true by lia. auto.
Qed.

Lemma clearmask_ok wrap k : 0 <= k <= 31 -> is31 wrap k ->
  exists m, clearmask wrap k = Ok m /\
    forall a, 0 <= a < 4294967296 -> Z.land a m = a - a mod 2 ^ k.
Proof.
  intros H W. unfold clearmask. rewrite (shl1 wrap k H).
  assert (L : forall a, 0 <= a < 4294967296 -> Z.land a (u32 (Z.lnot (2 ^ k - 1))) = a - a mod 2 ^ k).
  { intros a Ha. unfold u32, two32. change 4294967296 with (2 ^ 32).
    rewrite <- Z.land_ones by lia. rewrite Z.land_assoc, (Z.land_comm a), <- Z.land_assoc.
    rewrite (Z.land_ones a) by lia. rewrite (Z.mod_small a) by (change (2 ^ 32) with 4294967296; lia).
    rewrite Z.land_comm, <- Z.ldiff_land. replace (2 ^ k - 1) with (Z.ones k) by (rewrite Z.ones_equiv; lia).
    rewrite Z.ldiff_ones_r, Z.shiftl_mul_pow2, Z.shiftr_div_pow2 by lia.
    pose proof (Z.div_mod a (2 ^ k)). lia. }
  destruct (k =? 31) eqn:E.
  - apply Z.eqb_eq in E. subst k. destruct W as [->|]; [|congruence]. cbn [obind].
    unfold sint. cbn. eexists. split; [reflexivity|]. exact L.
  - cbn [obind]. unfold sint.
    assert (2 ^ k <= 2 ^ 30) by (apply Z.pow_le_mono_r; lia). change (2 ^ 30) with 1073741824 in *.
    assert (0 < 2 ^ k) by lia.
    replace ((-2147483648 <=? 2 ^ k - 1) && (2 ^ k - 1 <=? 2147483647)) with true by lia.
    cbn [obind]. eexists. split; [reflexivity|]. exact L.
Qed.

Lemma clearmask_ub : clearmask false 31 = UB.
Proof. vm_compute. reflexivity. Qed.

Lemma shl_small wrap x k : 0 <= k < 32 -> 0 <= x -> x * 2 ^ k < 4294967296 ->
  (wrap = true \/ x * 2 ^ k < 2147483648) ->
  exists n, sshl wrap x k = Ok n /\ u32 n = x * 2 ^ k.
Proof.
  intros H Hx Hm W. unfold sshl. replace ((k <? 0) || (32 <=? k)) with false by lia.
  rewrite Z.shiftl_mul_pow2 by lia. unfold sint.
  assert (0 < 2 ^ k) by lia. assert (0 <= x * 2 ^ k) by nia.
  destruct ((-2147483648 <=? x * 2 ^ k) && (x * 2 ^ k <=? 2147483647)) eqn:E.
  - eexists. split; [reflexivity|]. unfold u32. apply Z.mod_small. unfold two32. lia.
  - destruct wrap; [|lia]. eexists. split; [reflexivity|].
    unfold s32. replace (u32 (x * 2 ^ k)) with (x * 2 ^ k)
      by (unfold u32; rewrite Z.mod_small; unfold two32; lia).
    destruct (x * 2 ^ k <? 2147483648) eqn:L; [lia|]. unfold u32, two32.
    rewrite <- (Z.mod_add _ 1) by lia. rewrite Z.mod_small; lia.
Qed.

Lemma u32_add a b c : u32 b = c -> u32 (a + b) = u32 (a + c).
Proof. intros <-. unfold u32. rewrite Zplus_mod_idemp_r. auto. Qed.

(** The core of makeip. *)
Lemma makeip_core wrap bits s1 s2 net host a template subnet :
  (bits = 32 /\ 1 <= s1 \/ bits = 128 /\ 97 <= s1 /\ template = false) ->
  s1 <= s2 <= bits -> is31 wrap (bits - s1) ->
  is_int net -> is_int host -> 0 <= a < 4294967296 ->
  if (0 <=? net) && (net <? 2 ^ (s2 - s1)) && (0 <=? host) && (host <? 2 ^ (bits - s2))
  then makeip wrap bits s1 s2 net host a template subnet =
       Ok (a - a mod 2 ^ (bits - s1) + net * 2 ^ (bits - s2) + host,
           match subnet with
           | None => None
           | Some k => Some ((if k =? 1 then s1 else s2) + (if template then 96 else 0))
           end)
  else makeip wrap bits s1 s2 net host a template subnet = Die.
Proof.
  intros Hb Hs W Hn Hh Ha. unfold is_int in *.
  unfold makeip.
  replace ((bits =? 128) && (s1 <? 97)) with false by lia.
  replace ((bits =? 128) && template) with false by (destruct Hb as [[-> _]|(-> & _ & ->)]; reflexivity).
  replace ((s2 <? s1) || (bits <? s2) || (s1 <=? 0)) with false by lia.
  assert (Hk : 0 <= bits - s1 <= 31) by lia.
  set (k1 := s2 - s1) in *. set (k2 := bits - s2) in *.
  assert (K1 : 0 <= k1) by lia. assert (K2 : 0 <= k2) by lia.
  assert (K3 : bits - s1 = k1 + k2) by lia.
  assert (P1 : 0 < 2 ^ k1) by lia. assert (P2 : 0 < 2 ^ k2) by lia.
  assert (P12 : 2 ^ (k1 + k2) = 2 ^ k1 * 2 ^ k2) by (apply Z.pow_add_r; lia).
  assert (PM : 2 ^ (k1 + k2) <= 2 ^ 31) by (apply Z.pow_le_mono_r; lia).
  assert (PM' : is31 wrap (bits - s1) -> wrap = true \/ 2 ^ (k1 + k2) <= 2 ^ 30).
  { intros [|]; auto. right. apply Z.pow_le_mono_r; lia. }
  specialize (PM' W). change (2 ^ 31) with 2147483648 in PM. change (2 ^ 30) with 1073741824 in PM'.
  assert (S : forall k, 0 <= k <= k1 + k2 -> exists m, sshl wrap 1 k = Ok m /\ u32 m = 2 ^ k).
  { intros k Hkk. assert (2 ^ k <= 2 ^ (k1 + k2)) by (apply Z.pow_le_mono_r; lia).
    destruct (shl_small wrap 1 k) as (m & E1 & E2); try lia.
    exists m. split; auto. lia. }
  destruct (S k1) as (m1 & E1 & U1); [lia|]. rewrite E1. cbn [obind]. rewrite U1.
  destruct (S k2) as (m2 & E2 & U2); [lia|].
  assert (B : forall x k, -2147483648 <= x <= 2147483647 -> 2 ^ k <= 2147483648 ->
     (2 ^ k <=? u32 x) = negb ((0 <=? x) && (x <? 2 ^ k))).
  { intros x k Hx Hkk. unfold u32. destruct (Z.leb_spec 0 x).
    - rewrite Z.mod_small by (unfold two32; lia). lia.
    - rewrite <- (Z.mod_add _ 1) by (unfold two32; lia). rewrite Z.mod_small by (unfold two32; lia).
      unfold two32. lia. }
  rewrite (B net k1) by (auto; nia).
  destruct ((0 <=? net) && (net <? 2 ^ k1)) eqn:EN; cbn [negb andb]; [|reflexivity].
  rewrite E2. cbn [obind]. rewrite U2. rewrite (B host k2) by (auto; nia).
  destruct ((0 <=? host) && (host <? 2 ^ k2)) eqn:EH; cbn [negb].
  2:{ destruct (0 <=? host); cbn in *; auto. }
  replace (0 <=? host) with true by lia. replace (host <? 2 ^ k2) with true by lia. cbn [andb].
  destruct (clearmask_ok wrap (bits - s1) Hk W) as (m & EM & LM). rewrite EM. cbn [obind].
  assert (NB : net * 2 ^ k2 + 2 ^ k2 <= 2 ^ k1 * 2 ^ k2) by nia.
  destruct (shl_small wrap net k2) as (n & ES & US); try lia.
  rewrite ES. cbn [obind]. f_equal. f_equal;
    [|destruct subnet as [z|]; auto; destruct (z =? 1); auto].
  rewrite LM by auto. rewrite (u32_add _ _ _ US).
  rewrite K3 in *. rewrite P12 in *.
  set (Q := 2 ^ k1 * 2 ^ k2) in *.
  assert (M : 0 <= a mod Q < Q) by (apply Z.mod_pos_bound; lia).
  assert (T : a - a mod Q + Q <= 4294967296).
  { pose proof (Z.div_mod a Q). replace (a - a mod Q) with (Q * (a / Q)) by lia.
    assert (D : exists c, 4294967296 = Q * c /\ 0 < c).
    { exists (2 ^ (32 - (k1 + k2))). rewrite <- P12, <- Z.pow_add_r by lia.
      split; [|lia]. replace (k1 + k2 + (32 - (k1 + k2))) with 32 by lia. reflexivity. }
    destruct D as (c & Dc & Cp). assert (a / Q < c) by (apply Z.div_lt_upper_bound; lia).
    assert (Q * (a / Q + 1) <= Q * c) by (apply Z.mul_le_mono_nonneg_l; lia). lia. }
  assert (0 <= net * 2 ^ k2) by (apply Z.mul_nonneg_nonneg; lia).
  assert (a mod Q <= a) by (apply Z.mod_le; lia).
  unfold u32. rewrite (Z.mod_small (a - a mod Q + net * 2 ^ k2)) by (unfold two32; lia).
  rewrite Z.mod_small by (unfold two32; lia). lia.
Qed.

(** *** contains *)
Lemma value6_4 a b c d :
  value6 [a; b; c; d] =
  ((a * 4294967296 + b) * 4294967296 + c) * 4294967296 + d.
Proof. unfold value6. cbn [fold_left]. lia. Qed.

Lemma value6_inj w w' : words_ok w -> words_ok w' -> value6 w = value6 w' -> w = w'.
Proof.
  intros [L F] [L' F'] E.
  do 4 (destruct w as [|? w]; [discriminate|]). destruct w; [|discriminate].
  do 4 (destruct w' as [|? w']; [discriminate|]). destruct w'; [|discriminate].
  rewrite !value6_4 in E.
  repeat match goal with H : Forall _ (_ :: _) |- _ => apply Forall_cons_iff in H; destruct H end.
  assert (z2 = z6) by lia. subst. assert (z1 = z5) by lia. subst.
  assert (z0 = z4) by lia. subst. assert (z = z3) by lia. subst. auto.
Qed.

Lemma words_eq_eq a b : words_eq a b = true <-> a = b.
Proof. exact (streq_eq a b). Qed.

Lemma low_part h l k : 0 <= k -> 0 <= l < 4294967296 -> k < 32 ->
  (h * 4294967296 + l) - (h * 4294967296 + l) mod 2 ^ k = h * 4294967296 + (l - l mod 2 ^ k).
Proof.
  intros Hk Hl H. assert (E : 4294967296 = 2 ^ (32 - k) * 2 ^ k).
  { rewrite <- Z.pow_add_r by lia. replace (32 - k + k) with 32 by lia. reflexivity. }
  rewrite E at 2. rewrite Z.mul_assoc, (Z.add_comm (_ * 2 ^ k)), Z.mod_add by lia. lia.
Qed.

Lemma high_part h l k : 0 <= l < 4294967296 -> 0 <= k ->
  (h * 4294967296 + l) - (h * 4294967296 + l) mod 2 ^ (k + 32) =
  (h - h mod 2 ^ k) * 4294967296.
Proof.
  intros Hl Hk. rewrite Z.pow_add_r by lia. change (2 ^ 32) with 4294967296.
  assert (0 < 2 ^ k) by lia.
  assert (M : (h * 4294967296 + l) mod (2 ^ k * 4294967296) = (h mod 2 ^ k) * 4294967296 + l).
  { symmetry. apply Z.mod_unique with (h / 2 ^ k).
    - left. pose proof (Z.mod_pos_bound h (2 ^ k)). nia.
    - pose proof (Z.div_mod h (2 ^ k)). nia. }
  rewrite M. lia.
Qed.

Definition bit31 (s : Z) : Prop := s = 1 \/ s = 33 \/ s = 65 \/ s = 97.

Lemma mask_ipv6_ok wrap w s :
  words_ok w -> 0 < s <= 128 -> (wrap = true \/ ~ bit31 s) ->
  exists w', mask_ipv6 wrap w s = Ok w' /\ words_ok w' /\
    value6 w' = value6 w - value6 w mod 2 ^ (128 - s).
Proof.
  intros [L F] Hs W.
  do 4 (destruct w as [|? w]; [discriminate|]). destruct w; [|discriminate].
  repeat match goal with H : Forall _ (_ :: _) |- _ => apply Forall_cons_iff in H; destruct H end.
  unfold mask_ipv6. replace (128 <? s) with false by lia.
  assert (LM : forall x k, 0 <= x < 4294967296 -> 0 <= k -> 0 <= x - x mod 2 ^ k < 4294967296).
  { intros x k Hx Hk. pose proof (Z.mod_le x (2 ^ k)). pose proof (Z.mod_pos_bound x (2 ^ k)). lia. }
  assert (FIN : forall a b c d, 0 <= a < 4294967296 -> 0 <= b < 4294967296 ->
     0 <= c < 4294967296 -> 0 <= d < 4294967296 -> words_ok [a; b; c; d]).
  { intros. split; auto 8. }
  assert (W' : forall j, 128 - s - 32 * j = 31 -> 0 <= j < 4 -> wrap = true).
  { intros j Hj Hjj. destruct W as [|W]; auto. exfalso. apply W. unfold bit31. lia. }
  destruct (Z.lt_ge_cases (128 - s) 32) as [C|C];
  [|destruct (Z.lt_ge_cases (128 - s) 64) as [C2|C2];
  [|destruct (Z.lt_ge_cases (128 - s) 96) as [C3|C3]]].
  - cbn [mask_loop]. replace (128 - s <? 32) with true by lia. cbn [obind].
    destruct (128 - s =? 0) eqn:E.
    + exists [z; z0; z1; z2]. split; auto. split; auto. replace (128 - s) with 0 by lia.
      change (2 ^ 0) with 1. rewrite Z.mod_1_r. lia.
    + destruct (clearmask_ok wrap (128 - s)) as (m & EM & LM2); [lia| |].
      { unfold is31. destruct (Z.eq_dec (128 - s) 31); auto. left. apply (W' 0); lia. }
      rewrite EM. cbn [obind].
      change (aget [z; z0; z1; z2] 3) with (Ok z2). cbn [obind].
      change (aset [z; z0; z1; z2] 3 (Z.land z2 m)) with (Ok [z; z0; z1; Z.land z2 m]).
      rewrite LM2 by auto.
      eexists. split; [reflexivity|]. split; [apply FIN; auto; apply LM; lia|].
      rewrite !value6_4. rewrite low_part; auto; lia.
  - cbn [mask_loop]. replace (128 - s <? 32) with false by lia.
    change (aset [z; z0; z1; z2] 3 0) with (Ok [z; z0; z1; 0]). cbn [obind mask_loop].
    replace (128 - s - 32 <? 32) with true by lia. cbn [obind]. change (3 - 1) with 2.
    assert (V : value6 [z; z0; z1; z2] - value6 [z; z0; z1; z2] mod 2 ^ (128 - s) =
       value6 [z; z0; z1 - z1 mod 2 ^ (128 - s - 32); 0]).
    { rewrite !value6_4. replace (128 - s) with ((128 - s - 32) + 32) by lia.
      rewrite high_part by lia. rewrite low_part by lia.
      replace (128 - s - 32 + 32 - 32) with (128 - s - 32) by lia. lia. }
    rewrite V. destruct (128 - s - 32 =? 0) eqn:E.
    + exists [z; z0; z1; 0]. split; auto. split; [apply FIN; auto; lia|].
      replace (128 - s - 32) with 0 by lia. change (2 ^ 0) with 1. rewrite Z.mod_1_r.
      rewrite !value6_4. lia.
    + destruct (clearmask_ok wrap (128 - s - 32)) as (m & EM & LM2); [lia| |].
      { unfold is31. destruct (Z.eq_dec (128 - s - 32) 31); auto. left. apply (W' 1); lia. }
      rewrite EM. cbn [obind].
      change (aget [z; z0; z1; 0] 2) with (Ok z1). cbn [obind].
      change (aset [z; z0; z1; 0] 2 (Z.land z1 m)) with (Ok [z; z0; Z.land z1 m; 0]).
      rewrite LM2 by auto. eexists. split; [reflexivity|]. split; auto. apply FIN; auto; try lia. apply LM; lia.
  - cbn [mask_loop]. replace (128 - s <? 32) with false by lia.
    change (aset [z; z0; z1; z2] 3 0) with (Ok [z; z0; z1; 0]). cbn [obind mask_loop].
    replace (128 - s - 32 <? 32) with false by lia.
    change (aset [z; z0; z1; 0] (3 - 1) 0) with (Ok [z; z0; 0; 0]). cbn [obind mask_loop].
    replace (128 - s - 32 - 32 <? 32) with true by lia. cbn [obind]. change (3 - 1 - 1) with 1.
    set (k := 128 - s - 32 - 32) in *.
    assert (V : value6 [z; z0; z1; z2] - value6 [z; z0; z1; z2] mod 2 ^ (128 - s) =
       value6 [z; z0 - z0 mod 2 ^ k; 0; 0]).
    { rewrite !value6_4. replace (128 - s) with ((k + 32) + 32) by lia.
      rewrite high_part by lia. rewrite high_part by lia. rewrite low_part by lia. lia. }
    rewrite V. destruct (k =? 0) eqn:E.
    + exists [z; z0; 0; 0]. split; auto. split; [apply FIN; auto; lia|].
      replace k with 0 by lia. change (2 ^ 0) with 1. rewrite Z.mod_1_r.
      rewrite !value6_4. lia.
    + destruct (clearmask_ok wrap k) as (m & EM & LM2); [lia| |].
      { unfold is31. destruct (Z.eq_dec k 31); auto. left. apply (W' 2); lia. }
      rewrite EM. cbn [obind].
      change (aget [z; z0; 0; 0] 1) with (Ok z0). cbn [obind].
      change (aset [z; z0; 0; 0] 1 (Z.land z0 m)) with (Ok [z; Z.land z0 m; 0; 0]).
      rewrite LM2 by auto. eexists. split; [reflexivity|]. split; auto. apply FIN; auto; try lia. apply LM; lia.
  - cbn [mask_loop]. replace (128 - s <? 32) with false by lia.
    change (aset [z; z0; z1; z2] 3 0) with (Ok [z; z0; z1; 0]). cbn [obind mask_loop].
    replace (128 - s - 32 <? 32) with false by lia.
    change (aset [z; z0; z1; 0] (3 - 1) 0) with (Ok [z; z0; 0; 0]). cbn [obind mask_loop].
    replace (128 - s - 32 - 32 <? 32) with false by lia.
    change (aset [z; z0; 0; 0] (3 - 1 - 1) 0) with (Ok [z; 0; 0; 0]). cbn [obind mask_loop].
    replace (128 - s - 32 - 32 - 32 <? 32) with true by lia. cbn [obind]. change (3 - 1 - 1 - 1) with 0.
    set (k := 128 - s - 32 - 32 - 32) in *.
    assert (V : value6 [z; z0; z1; z2] - value6 [z; z0; z1; z2] mod 2 ^ (128 - s) =
       value6 [z - z mod 2 ^ k; 0; 0; 0]).
    { rewrite !value6_4. replace (128 - s) with (((k + 32) + 32) + 32) by lia.
      rewrite high_part by lia. rewrite high_part by lia. rewrite high_part by lia. lia. }
    rewrite V. destruct (k =? 0) eqn:E.
    + exists [z; 0; 0; 0]. split; auto. split; [apply FIN; auto; lia|].
      replace k with 0 by lia. change (2 ^ 0) with 1. rewrite Z.mod_1_r.
      rewrite !value6_4. lia.
    + destruct (clearmask_ok wrap k) as (m & EM & LM2); [lia| |].
      { unfold is31. destruct (Z.eq_dec k 31); auto. left. apply (W' 3); lia. }
      rewrite EM. cbn [obind].
      change (aget [z; 0; 0; 0] 0) with (Ok z). cbn [obind].
      change (aset [z; 0; 0; 0] 0 (Z.land z m)) with (Ok [Z.land z m; 0; 0; 0]).
      rewrite LM2 by auto. eexists. split; [reflexivity|]. split; auto. apply FIN; auto; try lia. apply LM; lia.
Qed.

Lemma agree_mod a b k : 0 <= k ->
  (a - a mod 2 ^ k = b - b mod 2 ^ k <-> a / 2 ^ k = b / 2 ^ k).
Proof.
  intros Hk. pose proof (Z.div_mod a (2 ^ k)). pose proof (Z.div_mod b (2 ^ k)).
  assert (0 < 2 ^ k) by lia.
  replace (a - a mod 2 ^ k) with (2 ^ k * (a / 2 ^ k)) by lia.
  replace (b - b mod 2 ^ k) with (2 ^ k * (b / 2 ^ k)) by lia.
  split; [|congruence]. intros E. apply Z.mul_reg_l in E; lia.
Qed.

(** Prefix lengths for which the code computes (1 << 31) - 1. *)
Definition odd_prefix (cidr : ipaddr) (s : Z) : Prop :=
  match cidr with V4 _ => s = 1 | V6 _ => bit31 s end.

Lemma contains_ok wrap cidr s addr :
  addr_ok cidr -> addr_ok addr -> 0 < s <= width cidr ->
  (wrap = true \/ ~ odd_prefix cidr s) ->
  exists b, contains wrap cidr s addr = Ok b /\ (b = true <-> member cidr s addr).
Proof.
  intros Hc Ha Hs W. unfold contains. replace (s =? 0) with false by lia.
  destruct cidr as [c|c], addr as [a|a]; cbn [width member odd_prefix addr_ok] in *.
  - replace ((s <? 0) || (32 <? s)) with false by lia.
    destruct (clearmask_ok wrap (32 - s)) as (m & EM & L); [lia| |].
    { unfold is31. destruct W; auto. right. lia. }
    rewrite EM. cbn [obind]. eexists. split; [reflexivity|]. rewrite !L by auto. rewrite Z.eqb_eq.
    unfold agree. apply agree_mod. lia.
  - exists false. split; auto. split; [discriminate|tauto].
  - exists false. split; auto. split; [discriminate|tauto].
  - replace ((s <? 0) || (128 <? s)) with false by lia.
    destruct (mask_ipv6_ok wrap a s) as (a' & Ea & Oa & Va); auto.
    destruct (mask_ipv6_ok wrap c s) as (c' & Ec & Oc & Vc); auto.
    rewrite Ea. cbn [obind]. rewrite Ec. cbn [obind]. eexists. split; [reflexivity|].
    rewrite words_eq_eq. unfold agree. rewrite <- agree_mod by lia. rewrite <- Va, <- Vc.
    split; [congruence|]. apply value6_inj; auto.
Qed.

Lemma fields a k1 k2 net host :
  0 <= k1 -> 0 <= k2 -> 0 <= net < 2 ^ k1 -> 0 <= host < 2 ^ k2 ->
  let r := a - a mod 2 ^ (k1 + k2) + net * 2 ^ k2 + host in
  r / 2 ^ (k1 + k2) = a / 2 ^ (k1 + k2) /\ (r / 2 ^ k2) mod 2 ^ k1 = net /\ r mod 2 ^ k2 = host.
Proof.
  intros K1 K2 Hn Hh. assert (P1 : 0 < 2 ^ k1) by lia. assert (P2 : 0 < 2 ^ k2) by lia.
  rewrite Z.pow_add_r by lia. set (p := 2 ^ k1) in *. set (q := 2 ^ k2) in *.
  assert (E : a - a mod (p * q) = (p * q) * (a / (p * q))).
  { pose proof (Z.div_mod a (p * q)). nia. }
  cbn zeta. rewrite E. set (t := a / (p * q)) in *.
  assert (D : (p * q * t + net * q + host) / q = p * t + net).
  { symmetry. apply Z.div_unique with host; [lia|nia]. }
  split; [|split].
  - symmetry. apply Z.div_unique with (net * q + host); [nia|nia].
  - rewrite D. symmetry. apply Z.mod_unique with t; [lia|lia].
  - symmetry. apply Z.mod_unique with (p * t + net); [lia|nia].
Qed.

(** The --cidr arguments makeip works on. *)
Definition cidr_ok (bits s1 s2 : Z) (template : bool) : Prop :=
  (bits = 32 /\ 1 <= s1 \/ bits = 128 /\ 97 <= s1 /\ template = false) /\ s1 <= s2 <= bits.

Lemma makeip_fields wrap bits s1 s2 net host a template subnet :
  cidr_ok bits s1 s2 template -> (wrap = true \/ bits - s1 <> 31) ->
  is_int net -> is_int host -> 0 <= a < 4294967296 ->
  (0 <= net < 2 ^ (s2 - s1) /\ 0 <= host < 2 ^ (bits - s2) /\
   exists r, 0 <= r < 4294967296 /\
     makeip wrap bits s1 s2 net host a template subnet =
       Ok (r, match subnet with
              | None => None
              | Some k => Some ((if k =? 1 then s1 else s2) + (if template then 96 else 0))
              end) /\
     agree bits s1 r a /\ (r / 2 ^ (bits - s2)) mod 2 ^ (s2 - s1) = net /\
     r mod 2 ^ (bits - s2) = host) \/
  (~ (0 <= net < 2 ^ (s2 - s1) /\ 0 <= host < 2 ^ (bits - s2)) /\
   makeip wrap bits s1 s2 net host a template subnet = Die).
Proof.
  intros [Hb Hs] W Hn Hh Ha.
  pose proof (makeip_core wrap bits s1 s2 net host a template subnet Hb Hs W Hn Hh Ha) as C.
  destruct ((0 <=? net) && (net <? 2 ^ (s2 - s1)) && (0 <=? host) && (host <? 2 ^ (bits - s2))) eqn:E.
  - left. split; [lia|]. split; [lia|]. eexists. split; [|split; [exact C|]].
    + pose proof (Z.mod_pos_bound a (2 ^ (bits - s1))).
      assert (P : 2 ^ (bits - s1) = 2 ^ (s2 - s1) * 2 ^ (bits - s2))
        by (rewrite <- Z.pow_add_r by lia; f_equal; lia).
      assert (M : exists c, 4294967296 = 2 ^ (bits - s1) * c).
      { exists (2 ^ (32 - (bits - s1))). rewrite <- Z.pow_add_r by lia.
        replace (bits - s1 + (32 - (bits - s1))) with 32 by lia. reflexivity. }
      destruct M as [c Hc]. pose proof (Z.div_mod a (2 ^ (bits - s1))).
      assert (a / 2 ^ (bits - s1) < c) by (apply Z.div_lt_upper_bound; lia).
      set (p := 2 ^ (s2 - s1)) in *. set (q := 2 ^ (bits - s2)) in *. set (t := a / 2 ^ (bits - s1)) in *.
      assert (0 <= t) by (apply Z.div_pos; lia).
      assert (0 < p) by lia. assert (0 < q) by lia.
      replace (a - a mod 2 ^ (bits - s1)) with (p * q * t) by lia.
      assert (net * q + host < p * q) by nia.
      assert (p * q * (t + 1) <= p * q * c) by (apply Z.mul_le_mono_nonneg_l; nia).
      assert (0 <= net * q) by nia. assert (0 <= p * q * t) by nia. lia.
    + unfold agree. replace (bits - s1) with ((s2 - s1) + (bits - s2)) by lia.
      apply fields; lia.
  - right. split; [|exact C]. intros K. lia.
Qed.

Lemma makeip_inj wrap bits s1 s2 template subnet a net host net' host' r :
  cidr_ok bits s1 s2 template -> (wrap = true \/ bits - s1 <> 31) ->
  is_int net -> is_int host -> is_int net' -> is_int host' -> 0 <= a < 4294967296 ->
  makeip wrap bits s1 s2 net host a template subnet = Ok r ->
  makeip wrap bits s1 s2 net' host' a template subnet = Ok r ->
  net = net' /\ host = host'.
Proof.
  intros Hc W Hn Hh Hn' Hh' Ha E E'.
  destruct (makeip_fields wrap bits s1 s2 net host a template subnet Hc W Hn Hh Ha)
    as [(_ & _ & x & _ & X & _ & X1 & X2)|(_ & X)]; [|congruence].
  destruct (makeip_fields wrap bits s1 s2 net' host' a template subnet Hc W Hn' Hh' Ha)
    as [(_ & _ & y & _ & Y & _ & Y1 & Y2)|(_ & Y)]; [|congruence].
  assert (x = y) by congruence. subst y. split; congruence.
Qed.

Lemma makeip_ub bits s1 s2 net host a template subnet :
  cidr_ok bits s1 s2 template -> bits - s1 = 31 -> s1 < s2 < bits ->
  0 <= net < 2 ^ (s2 - s1) -> 0 <= host < 2 ^ (bits - s2) ->
  makeip false bits s1 s2 net host a template subnet = UB.
Proof.
  intros [Hb Hs] E Hs2 Hn Hh. unfold makeip.
  replace ((bits =? 128) && (s1 <? 97)) with false by lia.
  replace ((bits =? 128) && template) with false by (destruct Hb as [[-> _]|(-> & _ & ->)]; reflexivity).
  replace ((s2 <? s1) || (bits <? s2) || (s1 <=? 0)) with false by lia.
  assert (N : forall k, 0 <= k < 31 -> sshl false 1 k = Ok (2 ^ k) /\ 2 ^ k <= 1073741824 /\ u32 (2 ^ k) = 2 ^ k).
  { intros k Hk. rewrite shl1 by lia. replace (k =? 31) with false by lia.
    assert (2 ^ k <= 2 ^ 30) by (apply Z.pow_le_mono_r; lia). change (2 ^ 30) with 1073741824 in *.
    assert (0 < 2 ^ k) by lia.
    repeat split; auto. unfold u32, two32. apply Z.mod_small. lia. }
  destruct (N (s2 - s1)) as (N1 & N2 & N3); [lia|]. destruct (N (bits - s2)) as (M1 & M2 & M3); [lia|].
  rewrite N1. cbn [obind]. rewrite N3. unfold u32 at 1. rewrite (Z.mod_small net) by (unfold two32; lia).
  replace (2 ^ (s2 - s1) <=? net) with false by lia.
  rewrite M1. cbn [obind]. rewrite M3. unfold u32 at 1. rewrite (Z.mod_small host) by (unfold two32; lia).
  replace (2 ^ (bits - s2) <=? host) with false by lia.
  rewrite E, clearmask_ub. reflexivity.
Qed.

Lemma contains_zero wrap cidr addr :
  contains wrap cidr 0 addr = Ok true /\ (width cidr <> width addr -> ~ member cidr 0 addr).
Proof. split; [reflexivity|]. destruct cidr, addr; cbn; intros H K; lia || contradiction. Qed.

Lemma contains_ub cidr s addr :
  addr_ok cidr -> addr_ok addr -> width cidr = width addr -> odd_prefix cidr s ->
  contains false cidr s addr = UB.
Proof.
  intros Hc Ha E O. destruct cidr as [c|c], addr as [a|a]; cbn in E; try lia; cbn in O.
  - subst. reflexivity.
  - destruct Ha as [L _].
    do 4 (destruct a as [|? a]; [discriminate|]). destruct a; [|discriminate].
    destruct O as [ -> |[ -> |[ -> | -> ]]]; reflexivity.
Qed.

Lemma linklocal_eui m0 m1 m2 m3 m4 m5 : 0 <= m0 < 256 ->
  linklocal [m0; m1; m2; m3; m4; m5] =
  Ok ([254; 128] ++ repeat 0 6 ++
      [if Z.testbit m0 1 then m0 - 2 else m0 + 2; m1; m2; 255; 254; m3; m4; m5]).
Proof. intros H. rewrite <- lxor2 by auto. reflexivity. Qed.

Lemma trace_unknown t :
  t <> [] -> ~ In 44 t -> (forall k, ~ In (t, k) areas) ->
  cmdTrace_mask None (Some t) = Ok 0.
Proof.
  intros Hne Hc Hu. destruct (trace_union t) as (l & m & Hp & E & B).
  assert (P : pieces (str ",") t [t]).
  { apply (pieces_last (str ",") [] t); auto; [intros c []|].
    cbn. intros c H [<-|[]]. auto. }
  assert (l = [t]) by (eapply pieces_unique; eauto). subst l.
  rewrite E. f_equal. apply Z.bits_inj'. intros j Hj. rewrite Z.bits_0.
  destruct (Z.testbit m j) eqn:T; auto. apply B in T; auto.
  destruct T as (t' & [<-|[]] & K). exfalso. eapply Hu; eauto.
Qed.
