(** Proofs about flow requests. *)
From Coq Require Import String.
From Verif Require Import Base Lists Cstr_Model Util_Model Util_Spec Util_Proofs Remote_Model Remote_Spec.

Lemma given_value_cons f g v l :
  given_value f ((g, v) :: l) = if streq f g then Some v else given_value f l.
Proof.
  cbn [given_value]. destruct (list_eq_dec Z.eq_dec f g) as [->|N].
  - rewrite streq_refl. auto.
  - destruct (streq f g) eqn:E; auto. apply streq_eq in E. congruence.
Qed.

Lemma given_value_none f l : ~ In f (map fst l) -> given_value f l = None.
Proof.
  induction l as [|[g v] l IH]; cbn [map fst In]; intros H; auto.
  rewrite given_value_cons. destruct (streq f g) eqn:E; [apply streq_eq in E; subst; tauto|]. tauto.
Qed.

(** ** One line *)
Lemma fgets_line : forall n l rest, ~ In 10 l -> (length l < n)%nat ->
  fgets n (l ++ 10 :: rest) = (l ++ [10], rest).
Proof.
  induction n as [|n IH]; intros l rest H L; [lia|]. destruct l as [|c l]; cbn [app fgets].
  - reflexivity.
  - replace (c =? 10) with false. 2:{ symmetry. apply Z.eqb_neq. intros ->. apply H; left; auto. }
    rewrite IH; auto; [intros K; apply H; right; auto|cbn in L; lia].
Qed.

Lemma span_all p l r : forallb p l = true -> span p (l ++ r) = (l ++ fst (span p r), snd (span p r)).
Proof.
  induction l as [|c l IH]; cbn [app forallb span]; intros H.
  - destruct (span p r); auto.
  - apply andb_true_iff in H. destruct H as (-> & H). rewrite IH by auto. auto.
Qed.

Lemma notin_forallb x l : ~ In x l -> forallb (fun c => negb (c =? x)) l = true.
Proof.
  intros H. apply forallb_forall. intros y Hy. apply negb_true_iff, Z.eqb_neq. intros ->. auto.
Qed.

Lemma buf_line l : ~ In 10 l -> ~ In 0 l -> trim_nl (cstring (l ++ [10])) = l.
Proof.
  intros H1 H2. unfold cstring, trim_nl. rewrite span_all by (apply notin_forallb; auto).
  cbn [fst span negb Z.eqb]. rewrite span_all by (apply notin_forallb; auto).
  cbn [span negb]. rewrite Z.eqb_refl. cbn [negb fst]. apply app_nil_r.
Qed.

Lemma split_at_first f v : ~ In 58 f -> split_at 58 (f ++ 58 :: v) = Some (f, v).
Proof.
  induction f as [|c f IH]; cbn [app split_at]; intros H; auto.
  replace (c =? 58) with false. 2:{ symmetry. apply Z.eqb_neq. intros ->. apply H; left; auto. }
  rewrite IH; auto. intros K; apply H; right; auto.
Qed.

Lemma read_line fuel c l rest :
  ~ In 10 l -> ~ In 0 l -> zlen l <= 1022 ->
  read_loop (S fuel) c (l ++ 10 :: rest) =
  if prefix (str "eoc:") l then Ok (Some (c, rest))
  else match split_at 58 l with
       | None => Ok None
       | Some (f, arg) => do c' <- set_field c f arg; read_loop fuel c' rest
       end.
Proof.
  intros H1 H2 H3. cbn [read_loop].
  destruct (l ++ 10 :: rest) as [|x y] eqn:E; [destruct l; discriminate|]. rewrite <- E.
  rewrite fgets_line; auto. 2:{ unfold zlen, MAX_CMD_LINE in *. lia. }
  rewrite buf_line by auto. auto.
Qed.

(** ** More fuel does no harm *)
Lemma fgets_len n : forall s, (length (snd (fgets n s)) <= length s)%nat.
Proof.
  induction n as [|n IH]; intros [|c s]; cbn [fgets]; auto.
  destruct (c =? 10); cbn [snd length]; [lia|]. specialize (IH s). destruct (fgets n s); cbn in *. lia.
Qed.
Lemma fgets_shorter n c s : (length (snd (fgets (S n) (c :: s))) <= length s)%nat.
Proof.
  cbn [fgets]. destruct (c =? 10); cbn [snd]; auto. pose proof (fgets_len n s). destruct (fgets n s); auto.
Qed.

Lemma mkargv_ok v d : d <> [] -> exists r, mkargv (Some v) (Some d) = Ok r /\ items d (Some v) r.
Proof.
  intros Hd. destruct (mkargv_spec v d Hd) as (l & P & M). destruct (mkargv (Some v) (Some d)) as [r| | |]; try tauto.
  exists r. split; auto. cbn. exists l. split; auto.
Qed.

Lemma keepo_ok {A} (o : option A) r : (exists x, r = Ok x) -> exists y, keepo o r = Ok y.
Proof. intros (x & ->). destruct o; cbn; eauto. Qed.

Lemma set_field_ok c f v : exists c', set_field c f v = Ok c'.
Proof.
  destruct c as [ac na ta pr ps dp sp ds ss ma ue]. unfold set_field.
  assert (M : forall d, d <> [] -> exists x, mkargv (Some v) (Some d) = Ok x).
  { intros d Hd. destruct (mkargv_ok v d Hd) as (r & E & _); eauto. }
  assert (N1 : str ", " <> []) by discriminate. assert (N2 : str "," <> []) by discriminate.
  repeat match goal with |- context [if ?b then _ else _] => destruct b; eauto end.
  - destruct (keepo_ok ps _ (M _ N1)) as (y & ->). cbn; eauto.
  - destruct (keepo_ok ds _ (M _ N1)) as (y & ->). cbn; eauto.
  - destruct (keepo_ok ss _ (M _ N1)) as (y & ->). cbn; eauto.
  - destruct (keepo_ok ma _ (M _ N2)) as (y & ->). cbn; eauto.
Qed.

Lemma read_total : forall fuel c s, (length s <= fuel)%nat -> exists r, read_loop fuel c s = Ok r.
Proof.
  induction fuel as [|fuel IH]; intros c [|x s] L; cbn [length] in L; cbn [read_loop]; eauto; [lia|].
  replace (Z.to_nat (MAX_CMD_LINE - 1)) with (S (Z.to_nat 1022)) by (unfold MAX_CMD_LINE; lia).
  pose proof (fgets_shorter (Z.to_nat 1022) x s) as F.
  destruct (fgets (S (Z.to_nat 1022)) (x :: s)) as [line rest]. cbn [snd] in F.
  destruct (prefix _ _); eauto. destruct (split_at _ _) as [[f a]|]; eauto.
  destruct (set_field_ok c f a) as (c' & ->). cbn [obind]. apply IH. lia.
Qed.

Lemma read_fuel : forall fuel fuel' c s, (length s <= fuel)%nat -> (length s <= fuel')%nat ->
  read_loop fuel c s = read_loop fuel' c s.
Proof.
  induction fuel as [|fuel IH]; intros fuel' c [|x s] L L'; cbn [length] in *; [destruct fuel'; auto|lia|destruct fuel'; auto|].
  destruct fuel' as [|fuel']; [lia|]. cbn [read_loop].
  replace (Z.to_nat (MAX_CMD_LINE - 1)) with (S (Z.to_nat 1022)) by (unfold MAX_CMD_LINE; lia).
  pose proof (fgets_shorter (Z.to_nat 1022) x s) as F.
  destruct (fgets (S (Z.to_nat 1022)) (x :: s)) as [line rest]. cbn [snd] in F.
  destruct (prefix _ _); auto. destruct (split_at _ _) as [[f a]|]; auto.
  destruct (set_field_ok c f a) as (c' & ->). cbn [obind]. apply IH; lia.
Qed.

Lemma readFlowCmd_total s : exists r, readFlowCmd s = Ok r.
Proof. apply read_total. auto. Qed.

(** ** A whole request *)
Fixpoint set_all (c : flowcmd) (l : list (chars * chars)) : outcome flowcmd :=
  match l with
  | [] => Ok c
  | (f, v) :: l' => do c' <- set_field c f v; set_all c' l'
  end.

Definition keepi (d : chars) (old : option (list chars)) (v : option chars) (r : option (list chars)) : Prop :=
  match old with Some _ => r = old | None => items d v r end.
Definition lastn (old : Z) (v : option chars) (m : Z -> Z) (r : Z) : Prop :=
  r = match v with Some v => m (atoi v) | None => old end.

Definition merged (c : flowcmd) (l : list (chars * chars)) (c' : flowcmd) : Prop :=
  c_action c' = keep (c_action c) (given_value (str "action") l) /\
  c_name c' = keep (c_name c) (given_value (str "name") l) /\
  c_target c' = keep (c_target c) (given_value (str "target") l) /\
  lastn (c_priority c) (given_value (str "priority") l) (fun x => x) (c_priority c') /\
  keepi (str ", ") (c_protocols c) (given_value (str "protocols") l) (c_protocols c') /\
  c_dports c' = keep (c_dports c) (given_value (str "dports") l) /\
  c_sports c' = keep (c_sports c) (given_value (str "sports") l) /\
  keepi (str ", ") (c_dsts c) (given_value (str "dsts") l) (c_dsts c') /\
  keepi (str ", ") (c_srcs c) (given_value (str "srcs") l) (c_srcs c') /\
  keepi (str ",") (c_match c) (given_value (str "match") l) (c_match c') /\
  lastn (c_udpencap c) (given_value (str "udpencap") l) (fun x => x mod 65536) (c_udpencap c').

Lemma keep_assoc {A} (a : option A) v : keep (keep a (Some v)) None = keep a (Some v).
Proof. destruct a; auto. Qed.

Lemma keepi_step d old v l r x :
  mkargv (Some v) (Some d) = Ok x -> items d (Some v) x -> l = None ->
  forall y, keepo old (mkargv (Some v) (Some d)) = Ok y -> keepi d y l r -> keepi d old (Some v) r.
Proof.
  intros M I -> y K H. unfold keepi, keepo in *. destruct old.
  - inversion K; subst y. auto.
  - rewrite M in K. inversion K; subst y. destruct x as [a|].
    + subst r. auto.
    + cbn in H. subst r. auto.
Qed.

Lemma set_all_merged : forall l c, NoDup (map fst l) -> Forall (fun fv => In (fst fv) fields) l ->
  exists c', set_all c l = Ok c' /\ merged c l c'.
Proof.
  induction l as [|[f v] l IH]; intros c ND FA.
  - exists c. split; auto. unfold merged, lastn, keepi. cbn [given_value].
    assert (K : forall A (o : option A), o = keep o None) by (destruct o; auto).
    repeat apply conj; auto; match goal with |- match ?o with _ => _ end => destruct o; auto; cbn; auto end.
  - cbn [map] in ND. apply NoDup_cons_iff in ND. destruct ND as (N & ND).
    apply Forall_cons_iff in FA. destruct FA as (F & FA). cbn [fst] in *.
    pose proof (given_value_none f l N) as GN.
    destruct (set_field_ok c f v) as (c1 & E1). cbn [set_all]. rewrite E1. cbn [obind].
    destruct (IH c1 ND FA) as (c' & E2 & M). exists c'. split; auto.
    destruct (mkargv_ok v (str ", ")) as (x1 & MA1 & MI1); [discriminate|].
    destruct (mkargv_ok v (str ",")) as (x2 & MA2 & MI2); [discriminate|].
    destruct M as (M1 & M2 & M3 & M4 & M5 & M6 & M7 & M8 & M9 & M10 & M11).
    destruct c as [ac na ta pr ps dp sp ds ss ma ue].
    unfold merged. rewrite !given_value_cons.
    unfold fields in F. cbn [map] in F. cbn [In] in F.
    repeat (destruct F as [F|F]; [subst f|]); try destruct F;
      unfold set_field in E1;
      repeat match type of E1 with context [streq ?a ?b] =>
        let t := eval vm_compute in (streq a b) in change (streq a b) with t in E1 end; cbv iota in E1;
      repeat match goal with |- context [streq ?a ?b] =>
        let t := eval vm_compute in (streq a b) in change (streq a b) with t end; cbv iota;
      try (inversion E1; subst c1; clear E1; cbn [c_action c_name c_target c_priority c_protocols c_dports c_sports c_dsts c_srcs c_match c_udpencap] in *;
        rewrite ?GN in *; rewrite ?keep_assoc in *;
        repeat apply conj; auto; fail);
      try (inversion E1; subst c1; clear E1; cbn [c_action c_name c_target c_priority c_protocols c_dports c_sports c_dsts c_srcs c_match c_udpencap] in *;
        unfold lastn in *; rewrite ?GN in *; rewrite ?keep_assoc in *;
        repeat apply conj; auto; fail).
    all: match type of E1 with obind ?k _ = _ => destruct k as [y| | |] eqn:KE; try discriminate end;
      cbn [obind] in E1; inversion E1; subst c1; clear E1;
      cbn [c_action c_name c_target c_priority c_protocols c_dports c_sports c_dsts c_srcs c_match c_udpencap] in *;
      repeat apply conj; auto; rewrite GN in *;
      first [exact (keepi_step (str ", ") _ v None _ x1 MA1 MI1 eq_refl y KE M5)
            |exact (keepi_step (str ", ") _ v None _ x1 MA1 MI1 eq_refl y KE M8)
            |exact (keepi_step (str ", ") _ v None _ x1 MA1 MI1 eq_refl y KE M9)
            |exact (keepi_step (str ",") _ v None _ x2 MA2 MI2 eq_refl y KE M10)].
Qed.

Lemma field_facts f : In f fields -> ~ In 58 f /\ ~ In 10 f /\ ~ In 0 f /\ forall v, prefix (str "eoc:") (f ++ v) = false.
Proof.
  unfold fields. cbn [map In]. intros F.
  repeat (destruct F as [F|F]; [subst f; repeat split; try (cbn; intuition lia); intros; reflexivity|]). destruct F.
Qed.

Lemma read_set_all : forall l fuel c rest tail,
  Forall (fun fv => In (fst fv) fields /\ line_ok (fst fv) (snd fv)) l ->
  (length (lines l ++ tail ++ rest) <= fuel)%nat ->
  read_loop fuel c (lines l ++ tail ++ rest) =
  do c' <- set_all c l; read_loop fuel c' (tail ++ rest).
Proof.
  induction l as [|[f v] l IH]; intros fuel c rest tail FA L.
  - reflexivity.
  - apply Forall_cons_iff in FA. destruct FA as ((F & K1 & K2 & K3) & FA). cbn [fst snd] in *.
    destruct (field_facts f F) as (N1 & N2 & N3 & N4).
    change (lines ((f, v) :: l)) with ((f ++ [58] ++ v ++ [10]) ++ lines l) in *. cbn [set_all].
    set (more := lines l) in *.
    assert (E : ((f ++ [58] ++ v ++ [10]) ++ more) ++ tail ++ rest = (f ++ 58 :: v) ++ 10 :: (more ++ tail ++ rest)).
    { rewrite <- ?app_assoc; cbn [app]; rewrite <- ?app_assoc; reflexivity. }
    rewrite E in *.
    destruct fuel as [|fuel]; [exfalso; clear - L; destruct f; cbn in L; lia|].
    assert (L2 : (length (more ++ tail ++ rest) <= fuel)%nat).
    { rewrite app_length in L. cbn [length] in L. lia. }
    rewrite read_line.
    + rewrite N4. rewrite split_at_first by auto.
      destruct (set_field_ok c f v) as (c1 & ->). cbn [obind].
      unfold more in *. rewrite IH by auto. destruct (set_all c1 l); auto. cbn [obind].
      apply read_fuel; rewrite !app_length in *; lia.
    + intros H. apply in_app_or in H. destruct H as [H|[H|H]]; try tauto; discriminate.
    + intros H. apply in_app_or in H. destruct H as [H|[H|H]]; try tauto; discriminate.
    + unfold zlen in *. rewrite app_length. cbn [length]. lia.
Qed.

Lemma request_decoded l rest :
  NoDup (map fst l) -> Forall (fun fv => In (fst fv) fields /\ line_ok (fst fv) (snd fv)) l ->
  exists c, readFlowCmd (request l ++ rest) = Ok (Some (c, rest)) /\ decoded l c.
Proof.
  intros ND FA. destruct (set_all_merged l empty_cmd ND) as (c & E & M).
  { eapply Forall_impl; [|exact FA]. cbn; tauto. }
  exists c. split.
  - unfold readFlowCmd, request. rewrite <- !app_assoc.
    rewrite (read_set_all l _ empty_cmd ([10] ++ rest) (str "eoc:")) by auto. rewrite E. cbn [obind].
    change ([10] ++ rest) with (10 :: rest).
    set (n := length _). assert (n <> O). { unfold n. rewrite !app_length. cbn. lia. }
    destruct n as [|n]; [congruence|]. rewrite read_line.
    + reflexivity.
    + cbn. intuition lia.
    + cbn. intuition lia.
    + cbn. lia.
  - unfold merged, lastn, keepi, keep, empty_cmd in M.
    cbn [c_action c_name c_target c_priority c_protocols c_dports c_sports c_dsts c_srcs c_match c_udpencap] in M.
    destruct M as (M1 & M2 & M3 & M4 & M5 & M6 & M7 & M8 & M9 & M10 & M11).
    unfold decoded, number.
    split; [exact M1|]. split; [exact M2|]. split; [exact M3|]. split; [exact M4|]. split; [exact M5|].
    split; [exact M6|]. split; [exact M7|]. split; [exact M8|]. split; [exact M9|]. split; [exact M10|].
    rewrite M11. destruct (given_value (str "udpencap") l); auto.
Qed.

(** ** What the client sends *)
Lemma opt_line_req f v l : opt_line (str f) v ++ lines l =
  lines (given_opt f v ++ l).
Proof.
  destruct v as [v|]; [|reflexivity]. unfold lines. cbn [opt_line given_opt app map concat fst snd].
  unfold field_line. reflexivity.
Qed.

Lemma client_sends o s : cmdFlowSet o = Ok s -> s = request (set_request o).
Proof.
  unfold cmdFlowSet. intros H.
  repeat match type of H with (if ?b then _ else _) = _ => destruct b; [discriminate|] end.
  inversion H as [E]. clear H E s.
  unfold request, set_request, lines. cbn [map concat fst snd]. fold lines. change (concat (map _ ?x)) with (lines x).
  rewrite <- !opt_line_req.
  assert (E : opt_line (str "udpencap") (o_udpencap o) =
     lines (given_opt "udpencap" (o_udpencap o))).
  { rewrite <- (app_nil_r (given_opt _ _)), <- opt_line_req. cbn. rewrite app_nil_r. auto. }
  rewrite <- E. unfold field_line. rewrite <- ?app_assoc; cbn [app]; rewrite <- ?app_assoc; reflexivity.
Qed.

Lemma given_opt_fst f v : map fst (given_opt f v) = match v with Some _ => [str f] | None => [] end.
Proof. destruct v; auto. Qed.

Lemma nodup_set o : NoDup (map fst (set_request o)).
Proof.
  unfold set_request. cbn [map fst]. rewrite !map_app, !given_opt_fst.
  destruct (o_prio o), (o_protocols o), (o_dsts o), (o_srcs o), (o_dports o), (o_sports o), (o_match o), (o_udpencap o);
    cbn [app]; apply nodup_b; vm_compute; reflexivity.
Qed.

Lemma client_to_server o s rest :
  opts_ok o -> cmdFlowSet o = Ok s ->
  exists c, readFlowCmd (s ++ rest) = Ok (Some (c, rest)) /\ decoded (set_request o) c.
Proof.
  intros (P1 & P2 & P3 & P4 & P5 & P6 & P7 & P8 & P9 & P10 & L1 & L2 & L3) E.
  pose proof (client_sends o s E) as ->. apply request_decoded; [apply nodup_set|].
  unfold cmdFlowSet in E.
  destruct (255 <? zlen (o_target o)) eqn:LT; [discriminate|].
  destruct (too_long (o_protocols o) || too_long (o_dsts o) || too_long (o_srcs o)
          || too_long (o_dports o) || too_long (o_sports o) || too_long (o_match o)) eqn:TL; [discriminate|]. clear E.
  repeat (apply orb_false_iff in TL; let T := fresh "T" in destruct TL as (TL & T)).
  assert (G : forall f v, In (str f) fields -> zlen (str f) <= 9 -> plain_opt v -> too_long v = false ->
     Forall (fun fv => In (fst fv) fields /\ line_ok (fst fv) (snd fv)) (given_opt f v)).
  { intros f [v|] HF HL HP HT; cbn [given_opt]; constructor; auto. split; auto. cbn [fst snd].
    destruct HP. unfold line_ok. split; auto. split; auto. unfold too_long, MAX_ARG_LEN in HT. lia. }
  assert (S : forall v, short_opt v -> too_long v = false).
  { intros [v|]; cbn; auto. unfold MAX_ARG_LEN. lia. }
  unfold set_request. constructor.
  { split; [cbn; tauto|]. unfold line_ok. cbn. repeat split; try lia; intuition lia. }
  constructor.
  { split; [cbn; tauto|]. destruct P1. unfold line_ok. cbn [fst snd]. split; auto. split; auto.
    change (zlen (str "name")) with 4. lia. }
  constructor.
  { split; [cbn; tauto|]. destruct P2. unfold line_ok. cbn [fst snd]. split; auto. split; auto.
    change (zlen (str "target")) with 6. lia. }
  rewrite !Forall_app. repeat apply conj.
  all: apply G; [repeat first [left; reflexivity|right]|vm_compute; discriminate|assumption|auto].
Qed.

(** ** Refusals *)
Lemma prefix_app p s : prefix p s = true -> exists r, s = p ++ r.
Proof.
  revert s. induction p as [|x p IH]; intros s H; [exists s; auto|].
  destruct s as [|y s]; [discriminate|]. cbn [prefix] in H. apply andb_true_iff in H. destruct H as (H1 & H2).
  apply IH in H2. destruct H2 as (r & ->). exists r. cbn. f_equal. lia.
Qed.
Lemma span_split p s : exists r, s = fst (span p s) ++ r.
Proof.
  induction s as [|c s (r & IH)]; cbn [span]; [exists []; auto|]. destruct (p c).
  - destruct (span p s) as [a b]; cbn [fst] in *. exists r. cbn. f_equal. auto.
  - exists (c :: s). auto.
Qed.
Lemma fgets_split n : forall s, s = fst (fgets n s) ++ snd (fgets n s).
Proof.
  induction n as [|n IH]; intros [|c s]; cbn [fgets]; auto.
  destruct (c =? 10); auto. specialize (IH s). destruct (fgets n s); cbn in *. congruence.
Qed.

Lemma no_terminator s : ~ occurs (str "eoc:") s -> readFlowCmd s = Ok None.
Proof.
  unfold readFlowCmd. intros H. assert (L : (length s <= length s)%nat) by auto. revert L.
  generalize empty_cmd as c. generalize (length s) at 2 3 as fuel. intros fuel. revert s H.
  induction fuel as [|fuel IH]; intros s H c L; (destruct s as [|x s]; [reflexivity|]); [cbn in L; lia|].
  cbn [read_loop length] in *.
  replace (Z.to_nat (MAX_CMD_LINE - 1)) with (S (Z.to_nat 1022)) by (unfold MAX_CMD_LINE; lia).
  pose proof (fgets_shorter (Z.to_nat 1022) x s) as F.
  pose proof (fgets_split (S (Z.to_nat 1022)) (x :: s)) as SP.
  destruct (fgets (S (Z.to_nat 1022)) (x :: s)) as [line rest]. cbn [fst snd] in *.
  destruct (prefix (str "eoc:") (trim_nl (cstring line))) eqn:P.
  - exfalso. apply H. apply prefix_app in P. destruct P as (r & P).
    destruct (span_split (fun c => negb (c =? 10)) (cstring line)) as (r1 & S1).
    destruct (span_split (fun c => negb (c =? 0)) line) as (r2 & S2).
    change (fst (span (fun c => negb (c =? 10)) (cstring line))) with (trim_nl (cstring line)) in S1.
    change (fst (span (fun c => negb (c =? 0)) line)) with (cstring line) in S2.
    exists [], (r ++ r1 ++ r2 ++ rest). rewrite SP, S2, S1, P. cbn [app]. rewrite <- !app_assoc. reflexivity.
  - destruct (split_at _ _) as [[f a]|]; auto.
    destruct (set_field_ok c f a) as (c' & ->). cbn [obind]. apply IH; [|lia].
    intros (a1 & b1 & ->). apply H. exists (line ++ a1), b1. rewrite SP, <- app_assoc. auto.
Qed.

Lemma bad_line l bad rest :
  Forall (fun fv => In (fst fv) fields /\ line_ok (fst fv) (snd fv)) l ->
  ~ In 58 bad -> ~ In 10 bad -> ~ In 0 bad -> zlen bad <= 1022 ->
  readFlowCmd (lines l ++ bad ++ 10 :: rest) = Ok None.
Proof.
  intros FA B1 B2 B3 B4. unfold readFlowCmd.
  rewrite (read_set_all l _ empty_cmd (10 :: rest) bad) by auto.
  assert (SO : forall l c, exists c', set_all c l = Ok c').
  { clear. induction l as [|[f v] l IH]; intros c; cbn [set_all]; eauto.
    destruct (set_field_ok c f v) as (c' & ->). cbn; eauto. }
  destruct (SO l empty_cmd) as (c & ->). cbn [obind].
  set (n := length _). assert (n <> O). { unfold n. rewrite !app_length. cbn. lia. }
  destruct n as [|n]; [congruence|]. rewrite read_line by auto.
  destruct (prefix (str "eoc:") bad) eqn:P.
  - exfalso. apply prefix_app in P. destruct P as (r & ->). apply B1. cbn. tauto.
  - replace (split_at 58 bad) with (@None (chars * chars)); auto.
    clear - B1. induction bad as [|c bad IH]; auto. cbn [split_at].
    replace (c =? 58) with false. 2:{ symmetry. apply Z.eqb_neq. intros ->. apply B1; left; auto. }
    rewrite <- IH; auto. intros K; apply B1; right; auto.
Qed.

(** An unknown field makes no difference. *)
Lemma unknown_ignored l f v rest :
  Forall (fun fv => In (fst fv) fields /\ line_ok (fst fv) (snd fv)) l ->
  ~ In f fields -> ~ In 58 f -> ~ In 10 f -> ~ In 0 f -> f <> str "eoc" -> line_ok f v ->
  readFlowCmd (lines l ++ (f ++ str ":" ++ v ++ [10]) ++ rest) =
  readFlowCmd (lines l ++ rest).
Proof.
  intros FA NF N1 N2 N3 NE (V1 & V2 & V3). unfold readFlowCmd.
  rewrite (read_set_all l _ empty_cmd rest (f ++ str ":" ++ v ++ [10])) by auto.
  pose proof (read_set_all l (length (lines l ++ rest)) empty_cmd rest [] FA) as R.
  cbn [app] in R. rewrite R by auto. clear R.
  assert (SO : forall l c, exists c', set_all c l = Ok c').
  { clear. induction l as [|[f v] l IH]; intros c; cbn [set_all]; eauto.
    destruct (set_field_ok c f v) as (c' & ->). cbn; eauto. }
  destruct (SO l empty_cmd) as (c & ->). cbn [obind]. change (str ":") with [58].
  replace ((f ++ [58] ++ v ++ [10]) ++ rest) with ((f ++ 58 :: v) ++ 10 :: rest).
  2:{ rewrite <- ?app_assoc; cbn [app]; rewrite <- ?app_assoc; reflexivity. }
  set (n := length (_ ++ (f ++ 58 :: v) ++ _)). assert (LN : (length rest < n)%nat).
  { unfold n. rewrite !app_length; cbn [length]; lia. }
  destruct n as [|n]; [lia|]. rewrite read_line.
  - rewrite split_at_first by auto.
    replace (prefix (str "eoc:") (f ++ 58 :: v)) with false.
    2:{ symmetry. destruct (prefix (str "eoc:") (f ++ 58 :: v)) eqn:P; auto. exfalso.
        clear - P N1 NE. apply prefix_app in P. destruct P as (r & P).
        destruct f as [|a [|b [|c [|d f]]]]; cbn in P; inversion P; subst; try (apply N1; cbn; tauto); apply NE; reflexivity. }
    replace (set_field c f v) with (Ok c).
    2:{ destruct c. unfold set_field, fields in *. cbn [map In] in NF.
        repeat match goal with |- context [streq f ?b] => 
          replace (streq f b) with false by (symmetry; destruct (streq f b) eqn:S; auto; apply streq_eq in S; subst f; tauto) end.
        reflexivity. }
    cbn [obind]. apply read_fuel; [|rewrite app_length]; lia.
  - intros H. apply in_app_or in H. destruct H as [H|[H|H]]; try tauto; discriminate.
  - intros H. apply in_app_or in H. destruct H as [H|[H|H]]; try tauto; discriminate.
  - unfold zlen in *. rewrite app_length. cbn [length]. lia.
Qed.

Lemma req1 f v l rest : 
  NoDup (map fst ((str f, v) :: l)) -> In (str f) fields -> line_ok (str f) v ->
  Forall (fun fv => In (fst fv) fields /\ line_ok (fst fv) (snd fv)) l ->
  exists c, readFlowCmd (request ((str f, v) :: l) ++ rest) = Ok (Some (c, rest)) /\ decoded ((str f, v) :: l) c.
Proof. intros. apply request_decoded; auto. Qed.

Lemma other_commands : forall name rest,
  plain name -> zlen name <= 1000 ->
  (exists c, readFlowCmd (cmdFlowDelete name ++ rest) = Ok (Some (c, rest)) /\
             decoded [(str "action", str "delete"); (str "name", name)] c) /\
  (exists c, readFlowCmd (cmdFlowList (Some name) ++ rest) = Ok (Some (c, rest)) /\
             decoded [(str "action", str "list"); (str "name", name)] c) /\
  (exists c, readFlowCmd (cmdFlowList None ++ rest) = Ok (Some (c, rest)) /\
             decoded [(str "action", str "list")] c) /\
  (exists c, readFlowCmd (cmdFlowListNames ++ rest) = Ok (Some (c, rest)) /\
             decoded [(str "action", str "list-names")] c).
Proof.
  intros name rest (P1 & P2) L.
  assert (N : line_ok (str "name") name).
  { unfold line_ok. change (zlen (str "name")) with 4. split; auto. split; auto. lia. }
  assert (NF : Forall (fun fv => In (fst fv) fields /\ line_ok (fst fv) (snd fv)) [(str "name", name)]).
  { constructor; [|constructor]. split; [right; left; reflexivity|exact N]. }
  assert (D : NoDup [str "action"; str "name"]) by (repeat constructor; cbn; intuition discriminate).
  assert (D1 : NoDup [str "action"]) by (repeat constructor; cbn; tauto).
  assert (IA : In (str "action") fields) by (left; reflexivity).
  assert (E1 : cmdFlowDelete name = request [(str "action", str "delete"); (str "name", name)]).
  { unfold cmdFlowDelete, request, lines, field_line. cbn [map concat fst snd]. cbn [str app]. rewrite <- ?app_assoc. cbn [app]. rewrite <- ?app_assoc. reflexivity. }
  assert (E2 : cmdFlowList (Some name) = request [(str "action", str "list"); (str "name", name)]).
  { unfold cmdFlowList, request, lines, opt_line, field_line. cbn [map concat fst snd opt_line]. cbn [str app]. rewrite <- ?app_assoc. cbn [app]. rewrite <- ?app_assoc. reflexivity. }
  split; [rewrite E1|split; [rewrite E2|split]].
  - apply req1; auto. unfold line_ok. cbn. intuition lia.
  - apply req1; auto. unfold line_ok. cbn. intuition lia.
  - apply (req1 "action" (str "list") []); auto. unfold line_ok. cbn. intuition lia.
  - apply (req1 "action" (str "list-names") []); auto. unfold line_ok. cbn. intuition lia.
Qed.

(** ** Overlong names *)
Lemma fgets_full : forall l n rest, ~ In 10 l -> (length l = n)%nat -> fgets n (l ++ rest) = (l, rest).
Proof.
  induction l as [|c l IH]; intros n rest H L; cbn in L; subst n; [destruct rest; auto|]. cbn [app fgets].
  replace (c =? 10) with false. 2:{ symmetry. apply Z.eqb_neq. intros ->. apply H; left; auto. }
  rewrite IH; auto. intros K; apply H; right; auto.
Qed.

Lemma read_full fuel c l rest : ~ In 10 l -> ~ In 0 l -> zlen l = 1023 ->
  read_loop (S fuel) c (l ++ rest) =
  if prefix (str "eoc:") l then Ok (Some (c, rest))
  else match split_at 58 l with
       | None => Ok None
       | Some (f, arg) => do c' <- set_field c f arg; read_loop fuel c' rest
       end.
Proof.
  intros H1 H2 H3. cbn [read_loop].
  destruct (l ++ rest) as [|x y] eqn:E; [destruct l; [cbn in H3; lia|discriminate]|]. rewrite <- E.
  rewrite fgets_full; auto. 2:{ unfold zlen, MAX_CMD_LINE in *. lia. }
  replace (trim_nl (cstring l)) with l; auto. unfold trim_nl, cstring.
  rewrite <- (app_nil_r l) at 2. rewrite span_all by (apply notin_forallb; auto). cbn [fst span].
  rewrite app_nil_r. rewrite <- (app_nil_r l) at 2. rewrite span_all by (apply notin_forallb; auto).
  cbn [fst span]. rewrite app_nil_r. auto.
Qed.

Lemma long_name t s rest :
  plain t -> zlen t <= 255 ->
  cmdFlowSet (mkSO (repeat 97 (Z.to_nat 1018) ++ str "target:evil") t None None None None None None None None) = Ok s ->
  exists c, readFlowCmd (s ++ rest) = Ok (Some (c, rest)) /\
    c_name c = Some (repeat 97 (Z.to_nat 1018)) /\ c_target c = Some (str "evil").
Proof.
  intros (P1 & P2) L E.
  set (A := repeat 97 (Z.to_nat 1018)) in *.
  assert (LA : zlen A = 1018) by (unfold A, zlen; rewrite repeat_length; lia).
  assert (IA : forall x, In x A -> x = 97) by (intros x; apply repeat_spec).
  clearbody A. unfold cmdFlowSet in E. cbn [o_target] in E.
  replace (255 <? zlen t) with false in E by lia.
  cbn [o_name o_target o_prio o_protocols o_dsts o_srcs o_dports o_sports o_match o_udpencap too_long given orb andb opt_line app] in E.
  assert (E' : forall x y : chars, Ok x = Ok y -> x = y) by (intros; congruence). apply E' in E. clear E'. subst s.
  unfold field_line.
  match goal with |- context [readFlowCmd ?x] => replace x with
    ((str "action:set") ++ 10 :: ((str "name:" ++ A) ++ (str "target:evil" ++ 10 :: ((str "target" ++ 58 :: t) ++ 10 :: (str "eoc:" ++ 10 :: rest))))) end.
  2:{ rewrite <- ?app_assoc. cbn [app str]. repeat (rewrite <- ?app_assoc; cbn [app]). reflexivity. }
  unfold readFlowCmd. set (n := length _).
  assert (LN : (5 <= n)%nat).
  { unfold n. rewrite app_length. change (length (str "action:set")) with 10%nat. lia. }
  do 5 (destruct n as [|n]; [exfalso; lia|]). clear LN.
  rewrite read_line; [|cbn; intuition lia|cbn; intuition lia|cbn; lia].
  change (prefix (str "eoc:") (str "action:set")) with false.
  change (split_at 58 (str "action:set")) with (Some (str "action", str "set")). cbv iota.
  change (set_field empty_cmd (str "action") (str "set")) with
    (Ok (mkFC (Some (str "set")) None None 0 None None None None None None 0)). cbn [obind].
  rewrite read_full.
  2:{ intros H. apply in_app_or in H. destruct H as [H|H]; [cbn in H; intuition lia|]. apply IA in H. lia. }
  2:{ intros H. apply in_app_or in H. destruct H as [H|H]; [cbn in H; intuition lia|]. apply IA in H. lia. }
  2:{ unfold zlen in *. rewrite app_length. cbn [length str]. lia. }
  change (prefix (str "eoc:") (str "name:" ++ A)) with false.
  change (str "name:" ++ A) with (str "name" ++ 58 :: A). rewrite split_at_first by (cbn; intuition lia).
  change (set_field (mkFC (Some (str "set")) None None 0 None None None None None None 0) (str "name") A) with
    (Ok (mkFC (Some (str "set")) (Some A) None 0 None None None None None None 0)). cbn [obind].
  rewrite read_line; [|cbn; intuition lia|cbn; intuition lia|cbn; lia].
  change (prefix (str "eoc:") (str "target:evil")) with false.
  change (split_at 58 (str "target:evil")) with (Some (str "target", str "evil")). cbv iota.
  change (set_field (mkFC (Some (str "set")) (Some A) None 0 None None None None None None 0) (str "target") (str "evil")) with
    (Ok (mkFC (Some (str "set")) (Some A) (Some (str "evil")) 0 None None None None None None 0)). cbn [obind].
  rewrite read_line.
  2:{ intros H. apply in_app_or in H. destruct H as [H|[H|H]]; [cbn in H; intuition lia|lia|auto]. }
  2:{ intros H. apply in_app_or in H. destruct H as [H|[H|H]]; [cbn in H; intuition lia|lia|auto]. }
  2:{ unfold zlen in *. rewrite app_length. cbn [length str]. lia. }
  change (prefix (str "eoc:") (str "target" ++ 58 :: t)) with false.
  rewrite split_at_first by (cbn; intuition lia). cbv iota.
  change (set_field (mkFC (Some (str "set")) (Some A) (Some (str "evil")) 0 None None None None None None 0) (str "target") t) with
    (Ok (mkFC (Some (str "set")) (Some A) (Some (str "evil")) 0 None None None None None None 0)). cbn [obind].
  rewrite read_line; [|cbn; intuition lia|cbn; intuition lia|cbn; lia].
  change (prefix (str "eoc:") (str "eoc:")) with true. cbv iota.
  eexists. split; [reflexivity|]. split; reflexivity.
Qed.

Lemma udpencap_cut : exists o s c,
  opts_ok o /\ o_udpencap o = Some (str "75435") /\ cmdFlowSet o = Ok s /\
  readFlowCmd s = Ok (Some (c, [])) /\ c_udpencap c = 9899.
Proof.
  exists (mkSO (str "f") (str "t") None (Some (str "sctp")) None None None None None (Some (str "75435"))).
  eexists. eexists. split.
  { unfold opts_ok, plain_opt, short_opt, plain. cbn. repeat split; try lia; intuition lia. }
  split; [reflexivity|]. split; [vm_compute; reflexivity|]. split; vm_compute; reflexivity.
Qed.

Lemma client_refuses o :
  (o_protocols o = None /\ (o_dports o <> None \/ o_sports o <> None \/ o_udpencap o <> None)) \/ 255 < zlen (o_target o) ->
  cmdFlowSet o = Die.
Proof.
  intros H. unfold cmdFlowSet. destruct (255 <? zlen (o_target o)) eqn:E; auto. destruct H as [(P & H)|H]; [|lia]. rewrite P.
  destruct (_ || _)%bool; auto. cbn [given negb]. destruct (o_udpencap o), (o_dports o), (o_sports o); cbn; auto.
  destruct H as [H|[H|H]]; congruence.
Qed.
