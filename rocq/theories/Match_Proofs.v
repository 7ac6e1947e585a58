(** Proofs about byte matches. *)
From Coq Require Import String.
From Verif Require Import Base Lists Cstr_Model IpKey_Model IpKey_Spec IpKey_Proofs
  Rangeset_Model Rangeset_Spec Rangeset2_Proofs Match_Model Match_Spec.

(** ** Regular expressions *)
Fixpoint lang (r : re) (s : chars) : Prop :=
  match r with
  | Nothing => False
  | Empty => s = []
  | Cls f => exists c, s = [c] /\ f c = true
  | Seq a b => exists x y, s = x ++ y /\ lang a x /\ lang b y
  | Alt a b => lang a s \/ lang b s
  | Star a => exists l, s = concat l /\ Forall (lang a) l
  end.

Lemma nullable_ok r : nullable r = true <-> lang r [].
Proof.
  induction r; cbn [nullable lang].
  - split; [congruence|tauto].
  - tauto.
  - split; [congruence|]. intros (c & H & _). discriminate.
  - rewrite Bool.andb_true_iff, IHr1, IHr2. split.
    + intros (A & B). exists [], []. auto.
    + intros (x & y & E & A & B). symmetry in E. apply app_eq_nil in E. destruct E; subst. auto.
  - rewrite Bool.orb_true_iff, IHr1, IHr2. tauto.
  - split; auto. intros _. exists []. auto.
Qed.

Lemma deriv_ok r : forall c s, lang (deriv r c) s <-> lang r (c :: s).
Proof.
  induction r; intros c s; cbn [deriv lang].
  - tauto.
  - split; [tauto|discriminate].
  - destruct (f c) eqn:E; cbn [lang].
    + split.
      * intros ->. exists c. auto.
      * intros (c' & H & _). congruence.
    + split; [tauto|]. intros (c' & H & H'). congruence.
  - assert (S1 : lang (Seq (deriv r1 c) r2) s <-> exists x y, c :: s = (c :: x) ++ y /\ lang r1 (c :: x) /\ lang r2 y).
    { cbn [lang]. split; intros (x & y & E & A & B).
      - exists x, y. subst. rewrite IHr1 in A. auto.
      - exists x, y. cbn in E. injection E as ->. rewrite IHr1. auto. }
    assert (S2 : (exists x y, c :: s = x ++ y /\ lang r1 x /\ lang r2 y) <->
                 (exists x y, c :: s = (c :: x) ++ y /\ lang r1 (c :: x) /\ lang r2 y) \/
                 (lang r1 [] /\ lang r2 (c :: s))).
    { split.
      - intros (x & y & E & A & B). destruct x as [|c' x].
        + right. cbn in E. subst. auto.
        + left. cbn in E. injection E as <- ->. exists x, y. auto.
      - intros [(x & y & E & A & B)|(A & B)]; eauto. exists [], (c :: s). auto. }
    rewrite S2. destruct (nullable r1) eqn:N.
    + cbn [lang] in *. rewrite S1, IHr2. apply nullable_ok in N. tauto.
    + rewrite S1. assert (~ lang r1 []) by (rewrite <- nullable_ok; congruence). tauto.
  - rewrite IHr1, IHr2. tauto.
  - split.
    + intros (x & y & -> & A & l & -> & F). rewrite IHr in A. exists ((c :: x) :: l). split; auto.
    + intros (l & E & F). induction l as [|x l IHl]; [discriminate|]. apply Forall_cons_iff in F. destruct F as (F1 & F2).
      destruct x as [|c' x].
      * cbn in E. auto.
      * cbn in E. injection E as <- ->. exists x, (concat l). rewrite IHr. eauto.
Qed.

Lemma regexec_ok s : forall r, regexec r s = true <-> lang r s.
Proof.
  induction s as [|c s IH]; intros r; cbn [regexec].
  - apply nullable_ok.
  - rewrite IH. apply deriv_ok.
Qed.

Lemma lang_chr x s : lang (Chr x) s <-> s = [x].
Proof.
  cbn. split.
  - intros (c & -> & H). f_equal. lia.
  - intros ->. exists x. split; auto. lia.
Qed.
Lemma lang_lit l : forall s, lang (Lit l) s <-> s = l.
Proof.
  induction l as [|c l IH]; intros s; cbn [Lit]; [cbn; tauto|].
  change (lang (Seq (Chr c) (Lit l)) s) with (exists x y, s = x ++ y /\ lang (Chr c) x /\ lang (Lit l) y).
  split.
  - intros (x & y & -> & A & B). apply lang_chr in A. apply IH in B. subst. auto.
  - intros ->. exists [c], l. rewrite lang_chr, IH. auto.
Qed.
Lemma lang_star_cls f s : lang (Star (Cls f)) s <-> Forall (fun c => f c = true) s.
Proof.
  cbn. split.
  - intros (l & -> & F). induction F as [|x l (c & -> & H) F IH]; cbn; auto.
  - intros F. exists (map (fun c => [c]) s). split.
    + clear F. induction s; cbn; f_equal; auto.
    + induction F; cbn; auto. constructor; eauto.
Qed.
Lemma lang_plus_cls f s : lang (Plus (Cls f)) s <-> s <> [] /\ Forall (fun c => f c = true) s.
Proof.
  unfold Plus. change (lang (Seq (Cls f) (Star (Cls f))) s) with
    (exists x y, s = x ++ y /\ lang (Cls f) x /\ lang (Star (Cls f)) y). split.
  - intros (x & y & -> & (c & -> & H) & B). apply lang_star_cls in B. cbn. split; [congruence|auto].
  - intros (H & F). destruct s as [|c s]; [congruence|]. apply Forall_cons_iff in F. destruct F as (F1 & F2).
    exists [c], s. split; auto. split; [cbn; eauto|]. apply lang_star_cls. auto.
Qed.
Lemma lang_blanks s : lang Blanks s <-> blanks s.
Proof.
  unfold Blanks, Chr. rewrite lang_star_cls. split.
  - intros F. exists (length s). induction F; cbn; auto. rewrite IHF at 1. f_equal. lia.
  - intros (k & ->). clear. induction k; cbn; auto.
Qed.
Lemma lang_hex s : lang Hex s <-> exists d, s = str "0x" ++ d /\ d <> [] /\ Forall (fun c => hex_class c = true) d.
Proof.
  unfold Hex. change (lang (Seq ?a ?b) s) with (exists x y, s = x ++ y /\ lang a x /\ lang b y). split.
  - intros (x & y & -> & A & B). apply lang_lit in A. apply lang_plus_cls in B. subst. eauto.
  - intros (d & -> & A). exists (str "0x"), d. rewrite lang_lit, lang_plus_cls. auto.
Qed.
Lemma lang_seq a b s : lang (Seq a b) s <-> exists x y, s = x ++ y /\ lang a x /\ lang b y.
Proof. reflexivity. Qed.
Lemma lang_alt a b s : lang (Alt a b) s <-> lang a s \/ lang b s.
Proof. reflexivity. Qed.

(** The parts of an accepted text *)
Definition regex_parts (s : chars) : Prop :=
  exists p o b1 b2 n m b3 b4 v,
    s = p ++ [91] ++ o ++ b1 ++ [58] ++ b2 ++ n ++ [93] ++ m ++ b3 ++ [61] ++ b4 ++ v /\
    (p = str "sctp" \/ p = str "tcp" \/ p = str "udp") /\
    (o <> [] /\ Forall (fun c => dec_class c = true) o) /\
    (exists c, n = [c] /\ n_class c = true) /\
    (m = [] \/ exists a b d, m = a ++ [38] ++ b ++ str "0x" ++ d /\ blanks a /\ blanks b /\
                             d <> [] /\ Forall (fun c => hex_class c = true) d) /\
    ((v <> [] /\ Forall (fun c => dec_class c = true) v) \/
     exists d, v = str "0x" ++ d /\ d <> [] /\ Forall (fun c => hex_class c = true) d) /\
    blanks b1 /\ blanks b2 /\ blanks b3 /\ blanks b4.

Lemma lang_opt_mask m : lang (Opt (Seq Blanks (Seq (Chr 38) (Seq Blanks Hex)))) m <->
  (m = [] \/ exists a b d, m = a ++ [38] ++ b ++ str "0x" ++ d /\ blanks a /\ blanks b /\
                           d <> [] /\ Forall (fun c => hex_class c = true) d).
Proof.
  unfold Opt. rewrite lang_alt. apply or_iff_compat_l. split.
  - intros H. apply lang_seq in H. destruct H as (a & y & -> & A & H).
    apply lang_seq in H. destruct H as (c & z & -> & C & H). apply lang_chr in C. subst.
    apply lang_seq in H. destruct H as (b & w & -> & B & H). apply lang_hex in H. destruct H as (d & -> & D1 & D2).
    exists a, b, d. rewrite <- lang_blanks, <- lang_blanks. auto.
  - intros (a & b & d & -> & A & B & D1 & D2). rewrite <- lang_blanks in A, B.
    apply lang_seq. do 2 eexists; split; [reflexivity|]; split; auto.
    apply lang_seq. do 2 eexists; split; [reflexivity|]; split; [apply lang_chr; auto|].
    apply lang_seq. do 2 eexists; split; [reflexivity|]; split; auto. apply lang_hex. eauto.
Qed.

Lemma regex_ok s : regexec REGEX s = true <-> regex_parts s.
Proof.
  rewrite regexec_ok. unfold REGEX. split.
  - intros H.
    apply lang_seq in H; destruct H as (p & ? & -> & P & H).
    apply lang_seq in H; destruct H as (? & ? & -> & C1 & H); apply lang_chr in C1; subst.
    apply lang_seq in H; destruct H as (o & ? & -> & O & H).
    apply lang_seq in H; destruct H as (b1 & ? & -> & B1 & H).
    apply lang_seq in H; destruct H as (? & ? & -> & C2 & H); apply lang_chr in C2; subst.
    apply lang_seq in H; destruct H as (b2 & ? & -> & B2 & H).
    apply lang_seq in H; destruct H as (n & ? & -> & N & H).
    apply lang_seq in H; destruct H as (? & ? & -> & C3 & H); apply lang_chr in C3; subst.
    apply lang_seq in H; destruct H as (m & ? & -> & M & H).
    apply lang_seq in H; destruct H as (b3 & ? & -> & B3 & H).
    apply lang_seq in H; destruct H as (? & ? & -> & C4 & H); apply lang_chr in C4; subst.
    apply lang_seq in H; destruct H as (b4 & v & -> & B4 & V).
    exists p, o, b1, b2, n, m, b3, b4, v. split; auto.
    rewrite !lang_alt, !lang_lit in P. apply lang_plus_cls in O. apply lang_opt_mask in M.
    rewrite lang_alt, lang_plus_cls, lang_hex in V. rewrite lang_blanks in B1, B2, B3, B4.
    auto 12.
  - intros (p & o & b1 & b2 & n & m & b3 & b4 & v & -> & P & O & N & M & V & B1 & B2 & B3 & B4).
    rewrite <- lang_blanks in B1, B2, B3, B4.
    repeat (apply lang_seq; do 2 eexists; split; [reflexivity|]; split).
    + rewrite !lang_alt, !lang_lit. auto.
    + apply lang_chr. auto.
    + apply lang_plus_cls. auto.
    + auto.
    + apply lang_chr. auto.
    + auto.
    + exact N.
    + apply lang_chr. auto.
    + apply lang_opt_mask. auto.
    + auto.
    + apply lang_chr. auto.
    + auto.
    + rewrite lang_alt, lang_plus_cls, lang_hex. auto.
Qed.

(** ** Reading an expression never goes past its end *)
Definition sep (c : Z) : Prop := c = 58 \/ c = 38 \/ c = 61.

Lemma app_sep (x p r y : chars) c : x ++ c :: y = p ++ r -> ~ In c p -> exists z, r = z ++ c :: y.
Proof.
  revert x. induction p as [|a p IH]; intros x E H.
  - exists x. auto.
  - destruct x as [|b x]; cbn in E.
    + injection E as <- _. exfalso. apply H. left. auto.
    + injection E as <- E. apply (IH x); auto. intros I. apply H. right. auto.
Qed.

Lemma digits_suffix s : forall b acc n v k r, digits b acc n s = (v, k, r) ->
  exists p, s = p ++ r /\ forall c, In c p -> digit c <> None.
Proof.
  induction s as [|c s IH]; intros b acc n v k r H; cbn [digits] in H.
  - injection H as <- <- <-. exists []. split; [auto|]. intros c [].
  - destruct (digit c) eqn:D.
    + destruct (z <? b).
      * apply IH in H. destruct H as (p & -> & H). exists (c :: p). split; auto.
        intros x [<-|I]; [congruence|]. auto.
      * injection H as <- <- <-. exists []. split; [auto|]. intros x [].
    + injection H as <- <- <-. exists []. split; [auto|]. intros x [].
Qed.

Lemma skip_suffix p s : exists a, s = a ++ skip p s /\ forall c, In c a -> p c = true.
Proof.
  induction s as [|c s (a & E & H)]; cbn [skip].
  - exists []. split; [auto|]. intros c [].
  - destruct (p c) eqn:P.
    + exists (c :: a). split; [cbn; congruence|]. intros x [<-|I]; auto.
    + exists []. split; [auto|]. intros x [].
Qed.

Lemma digit_sep c : sep c -> digit c = None.
Proof. intros [->|[->| ->]]; reflexivity. Qed.

Lemma strtol_suffix base s v r x c y : strtol base s = (v, r) -> sep c -> s = x ++ c :: y ->
  exists z, r = z ++ c :: y.
Proof.
  intros H S E. unfold strtol in H.
  destruct (skip_suffix isspace s) as (a & Ea & Ha).
  assert (E1 : exists z, skip isspace s = z ++ c :: y).
  { apply (app_sep x a); [congruence|]. intros I. apply Ha in I. destruct S as [->|[->| ->]]; discriminate. }
  revert H. generalize dependent (skip isspace s). intros s1 _ (z1 & ->) H.
  destruct (match z1 ++ c :: y with [] => (false, z1 ++ c :: y) | c0 :: r0 => if c0 =? 45 then (true, r0) else if c0 =? 43 then (false, r0) else (false, z1 ++ c :: y) end) as [neg s2] eqn:E2.
  assert (E3 : exists z, s2 = z ++ c :: y).
  { destruct z1 as [|c0 z1]; cbn [app] in E2.
    - replace (c =? 45) with false in E2 by (destruct S as [->|[->| ->]]; reflexivity).
      replace (c =? 43) with false in E2 by (destruct S as [->|[->| ->]]; reflexivity).
      injection E2 as <- <-. exists []. auto.
    - destruct (c0 =? 45); [injection E2 as <- <-; eauto|]. destruct (c0 =? 43); injection E2 as <- <-; eauto.
      exists (c0 :: z1). auto. }
  clear E2. destruct E3 as (z2 & ->).
  match type of H with (let '(b, s3) := ?e in _) = _ => destruct e as [b s3] eqn:E4 end.
  assert (E5 : exists z, s3 = z ++ c :: y).
  { destruct (base =? 0); [|injection E4 as <- <-; eauto].
    destruct z2 as [|d z2]; cbn [app] in E4.
    - assert (C : c =? 48 = false) by (destruct S as [->|[->| ->]]; reflexivity).
      destruct y as [|y1 [|y2 y]]; rewrite ?C in E4; cbn [andb] in E4; injection E4 as <- <-; exists []; auto.
    - destruct z2 as [|d2 z2]; cbn [app] in E4.
      + destruct y as [|y2 y].
        * destruct (d =? 48); injection E4 as <- <-; exists [d]; auto.
        * assert (C : (c =? 120) || (c =? 88) = false) by (destruct S as [->|[->| ->]]; reflexivity).
          rewrite C, Bool.andb_false_r in E4. cbn [andb] in E4. destruct (d =? 48); injection E4 as <- <-; exists [d]; auto.
      + destruct (z2 ++ c :: y) as [|d3 w] eqn:W; [destruct z2; discriminate|].
        destruct ((d =? 48) && ((d2 =? 120) || (d2 =? 88)) && is_hex_digit d3).
        * injection E4 as <- <-. eauto.
        * destruct (d =? 48); injection E4 as <- <-; exists (d :: d2 :: z2); cbn; congruence. }
  destruct E5 as (z3 & ->).
  destruct (digits b 0 0 (z3 ++ c :: y)) as [[v' n] rest] eqn:D.
  apply digits_suffix in D. destruct D as (p & D & HD).
  destruct (n =? 0); injection H as <- <-; [eauto|].
  apply (app_sep z3 p rest y c); auto. intros I. apply HD in I. apply I. apply digit_sep. auto.
Qed.

Lemma strtol_is_suffix base s v r : strtol base s = (v, r) -> exists q, s = q ++ r.
Proof.
  intros H. unfold strtol in H. destruct (skip_suffix isspace s) as (a & Ea & _).
  revert H Ea. generalize (skip isspace s). intros s1 H ->.
  match type of H with (let (_, _) := ?e in _) = _ => destruct e as [neg s2] eqn:E2 end.
  assert (X2 : exists q, s1 = q ++ s2).
  { destruct s1 as [|c s1]; [injection E2 as <- <-; exists []; auto|].
    destruct (c =? 45); [injection E2 as <- <-; exists [c]; auto|].
    destruct (c =? 43); injection E2 as <- <-; [exists [c]|exists []]; auto. }
  destruct X2 as (q2 & ->).
  match type of H with (let '(b, s3) := ?e in _) = _ => destruct e as [b s3] eqn:E4 end.
  assert (X3 : exists q, s2 = q ++ s3).
  { clear H E2. destruct (base =? 0); [|injection E4 as <- <-; exists []; auto].
    destruct s2 as [|z [|x [|h w]]]; try (destruct (z =? 48)); try (injection E4 as <- <-; exists []; reflexivity).
    - destruct (((x =? 120) || (x =? 88)) && is_hex_digit h) eqn:B; cbn [andb] in E4; rewrite B in E4.
      + injection E4 as <- <-. exists [z; x]. auto.
      + injection E4 as <- <-. exists []. auto. }
  destruct X3 as (q3 & ->).
  destruct (digits b 0 0 s3) as [[v' n] rest] eqn:D. apply digits_suffix in D. destruct D as (p & -> & _).
  destruct (n =? 0); injection H as <- <-.
  - exists []. auto.
  - exists (a ++ q2 ++ q3 ++ p). rewrite <- !app_assoc. auto.
Qed.

Lemma split_at_prefix c s : forall a b, split_at c s = Some (a, b) -> s = a ++ c :: b /\ ~ In c a.
Proof.
  induction s as [|x s IH]; intros a b H; cbn in H; [discriminate|].
  destruct (x =? c) eqn:E.
  - injection H as <- <-. split; [cbn; f_equal; lia|]. intros [].
  - destruct (split_at c s) as [[a' b']|] eqn:S; [|discriminate]. injection H as <- <-.
    destruct (IH a' b' eq_refl) as (-> & N). split; auto. intros [I|I]; [lia|auto].
Qed.

Lemma after_ok c x y : exists z, after c (x ++ c :: y) = Ok (z ++ y).
Proof.
  unfold after. destruct (split_at c (x ++ c :: y)) as [[a b]|] eqn:S.
  - apply split_at_prefix in S. destruct S as (S & N). revert a b S N.
    induction x as [|d x IH]; intros a b S N.
    + destruct a as [|e a]; cbn in S; injection S.
      * intros ->. exists []. auto.
      * intros _ <-. exfalso. apply N. left. auto.
    + destruct a as [|e a]; cbn in S; injection S.
      * intros <- _. exists (x ++ [c]). rewrite <- app_assoc. auto.
      * intros S' <-. apply (IH a b S'). intros I. apply N. right. auto.
  - exfalso. apply (split_at_some (x ++ c :: y) c); auto. apply in_or_app. right. left. auto.
Qed.

Lemma split38 z V e : z ++ 61 :: V = e -> ~ In 38 V -> forall a r, split_at 38 e = Some (a, r) ->
  exists z', r = z' ++ 61 :: V.
Proof.
  intros <- N a r S. apply split_at_prefix in S. destruct S as (S & _).
  apply app_eq_app in S. destruct S as (l & [(E1 & E2)|(E1 & E2)]).
  - destruct l as [|d l]; cbn in E2; [discriminate|]. injection E2 as <- E2. exists l. auto.
  - exfalso. assert (I : In 38 (61 :: V)) by (rewrite E2; apply in_or_app; right; left; auto).
    destruct I as [I|I]; [discriminate|auto].
Qed.

Lemma dec_not c l x : Forall (fun c => dec_class c = true) l -> dec_class x = false -> c = x -> ~ In c l.
Proof. intros F H -> I. rewrite Forall_forall in F. apply F in I. congruence. Qed.

(** Nothing in matchParse goes wrong, whatever the text is. *)
Lemma matchParse_total s : exists r, matchParse s = Ok r.
Proof.
  unfold matchParse. destruct (64 <? zlen s); [eauto|].
  destruct (regexec REGEX s) eqn:R; cbn [negb]; [|eauto].
  apply regex_ok in R. destruct R as (p & o & b1 & b2 & n & m & b3 & b4 & v & -> & _ & _ & _ & _ & V & _ & _ & _ & B4).
  assert (NV : ~ In 38 (b4 ++ v)).
  { intros I. apply in_app_or in I. destruct B4 as (k & ->). destruct I as [I|I].
    - apply repeat_spec in I. discriminate.
    - destruct V as [(_ & F)|(d & -> & _ & F)].
      + rewrite Forall_forall in F. apply F in I. discriminate.
      + apply in_app_or in I. destruct I as [I|I].
        * cbn in I. decompose [or] I; try discriminate; auto.
        * rewrite Forall_forall in F. apply F in I. discriminate. }
  match goal with |- context [match ?e with None => _ | Some _ => _ end] => destruct e as [P|]; [|eauto] end.
  destruct (after_ok 91 p (o ++ b1 ++ [58] ++ b2 ++ n ++ [93] ++ m ++ b3 ++ [61] ++ b4 ++ v)) as (z1 & A1).
  change ([91] ++ ?x) with (91 :: x) in *. rewrite A1. cbn [obind].
  destruct (strtol 0 (z1 ++ o ++ b1 ++ [58] ++ b2 ++ n ++ [93] ++ m ++ b3 ++ [61] ++ b4 ++ v)) as [off e1] eqn:S1.
  destruct (strtol_suffix _ _ _ _ (z1 ++ o ++ b1) 58 (b2 ++ n ++ [93] ++ m ++ b3 ++ [61] ++ b4 ++ v) S1) as (z2 & ->).
  { left. auto. } { rewrite <- !app_assoc. auto. }
  destruct (after_ok 58 z2 (b2 ++ n ++ [93] ++ m ++ b3 ++ [61] ++ b4 ++ v)) as (z3 & A2).
  rewrite A2. cbn [obind].
  destruct (strtol 0 (z3 ++ b2 ++ n ++ [93] ++ m ++ b3 ++ [61] ++ b4 ++ v)) as [nb e2] eqn:S2.
  destruct (strtol_suffix _ _ _ _ (z3 ++ b2 ++ n ++ [93] ++ m ++ b3) 61 (b4 ++ v) S2) as (z4 & E4).
  { right. right. auto. } { rewrite <- !app_assoc. auto. }
  match goal with |- context [if ?c then _ else _] => destruct c; [eauto|] end.
  match goal with |- context [if ?c then _ else _] => destruct c; [eauto|] end.
  match goal with |- context [let '(_, _) := ?e in _] => destruct e as [mask e3] eqn:M end.
  assert (exists z, e3 = z ++ 61 :: b4 ++ v) as (z5 & ->).
  { destruct (split_at 38 e2) as [[a r]|] eqn:SA.
    - destruct (split38 z4 (b4 ++ v) e2 (eq_sym E4) NV a r SA) as (z' & ->).
      destruct (strtol 0 (z' ++ 61 :: b4 ++ v)) as [mm ee] eqn:S3. injection M as <- <-.
      apply (strtol_suffix _ _ _ _ z' 61 (b4 ++ v) S3); auto. right. right. auto.
    - injection M as <- <-. eauto. }
  destruct (after_ok 61 z5 (b4 ++ v)) as (z6 & A3). rewrite A3. cbn [obind]. eauto.
Qed.

(** What is accepted *)
Lemma matchParse_item s i : matchParse s = Ok (inr i) ->
  is_l4proto (i_proto i) /\ (i_nbytes i = 1 \/ i_nbytes i = 2 \/ i_nbytes i = 4) /\
  is_u32 (i_offset i) /\ is_u32 (i_mask i) /\ is_u32 (i_value i) /\
  u32 (i_offset i + i_nbytes i) <= header_size (i_proto i).
Proof.
  unfold matchParse. destruct (64 <? zlen s); [discriminate|].
  destruct (negb (regexec REGEX s)); [discriminate|].
  match goal with |- context [match ?e with None => _ | Some _ => _ end] => destruct e as [P|] eqn:EP; [|discriminate] end.
  destruct (after 91 s); try discriminate. cbn [obind]. destruct (strtol 0 a) as [off e1].
  destruct (after 58 e1); try discriminate. cbn [obind]. destruct (strtol 0 a0) as [nb e2].
  destruct (negb (u32 nb =? 1) && negb (u32 nb =? 2) && negb (u32 nb =? 4)) eqn:EN; [discriminate|].
  destruct (headerlength P <? u32 (u32 off + u32 nb)) eqn:EH; [discriminate|].
  match goal with |- context [let '(_, _) := ?e in _] => destruct e as [mask e3] eqn:M end.
  destruct (after 61 e3); try discriminate. cbn [obind]. intros H. injection H as <-. cbn [i_proto i_nbytes i_offset i_mask i_value].
  assert (U : forall x, is_u32 (u32 x)).
  { intros x. unfold is_u32, u32, UINT_MAX. pose proof (Z.mod_pos_bound x two32). unfold two32 in *. lia. }
  assert (HP : is_l4proto P /\ headerlength P = header_size P).
  { unfold is_l4proto. destruct (starts (str "sctp") s); [injection EP as <-; cbn; auto|].
    destruct (starts (str "tcp") s); [injection EP as <-; cbn; auto|].
    destruct (starts (str "udp") s); [injection EP as <-; cbn; auto|discriminate]. }
  destruct HP as (HP & HL). rewrite HL in EH. split; [auto|]. split; [lia|]. split; [apply U|]. split; [|split; [apply U|lia]].
  destruct (split_at 38 e2) as [[a2 r2]|]; [destruct (strtol 0 r2)|]; injection M as <- <-; auto.
  unfold is_u32, UINT_MAX. lia.
Qed.

(** ** The value of an expression *)
Definition stop (rest : chars) : Prop := match rest with [] => True | c :: _ => digit c = None end.

Lemma digits_all b f s : forall acc n rest,
  Forall (fun c => exists d, digit c = Some d /\ d < b /\ f c = d) s -> stop rest ->
  digits b acc n (s ++ rest) = (fold_left (fun a c => a * b + f c) s acc, n + zlen s, rest).
Proof.
  induction s as [|c s IH]; intros acc n rest F R.
  - cbn [app fold_left]. unfold zlen. cbn [length]. rewrite Z.add_0_r.
    destruct rest as [|c r]; [reflexivity|]. cbn [digits]. cbn in R. rewrite R. auto.
  - apply Forall_cons_iff in F. destruct F as ((d & D & L & <-) & F). cbn [app digits]. rewrite D.
    replace (f c <? b) with true by lia. rewrite IH by auto. cbn [fold_left]. unfold zlen. cbn [length].
    f_equal. f_equal. lia.
Qed.

Lemma skip_blanks b s : blanks b -> (match s with [] => True | c :: _ => isspace c = false end) -> skip isspace (b ++ s) = s.
Proof.
  intros (k & ->) H. induction k as [|k IH]; [|exact IH]. cbn [repeat app]. destruct s as [|c s]; auto. cbn [skip]. rewrite H. auto.
Qed.

Lemma clamp v : 0 <= v <= LONG_MAX -> (if LONG_MAX <? v then LONG_MAX else if v <? LONG_MIN then LONG_MIN else v) = v.
Proof. unfold LONG_MAX, LONG_MIN. intros H. replace (_ <? v) with false by lia. replace (v <? _) with false by lia. auto. Qed.

Lemma fold_dec_nonneg s : Forall (fun c => 48 <= c <= 57) s -> forall a, 0 <= a -> 0 <= fold_left (fun a c => a * 10 + (c - 48)) s a.
Proof. induction 1; intros a Ha; cbn; auto. apply IHForall. lia. Qed.

Lemma strtol_dec b d v rest : blanks b -> is_dec d v -> v <= LONG_MAX -> stop rest ->
  strtol 0 (b ++ d ++ rest) = (v, rest).
Proof.
  intros B (D1 & D2 & D3 & D4) L R. destruct d as [|c d]; [congruence|].
  pose proof D2 as D2'. apply Forall_cons_iff in D2'. destruct D2' as (C & D2').
  assert (V0 : 0 <= v) by (rewrite <- D3; apply fold_dec_nonneg; [exact D2|lia]).
  unfold strtol. rewrite skip_blanks; auto.
  2:{ cbn [app]. unfold isspace. lia. }
  cbn [app]. replace (c =? 45) with false by lia. replace (c =? 43) with false by lia.
  rewrite Z.eqb_refl.
  destruct (c =? 48) eqn:C0.
  - assert (c = 48) by lia. subst c. specialize (D4 eq_refl). injection D4 as ->. cbn in D3. subst v. cbn [app].
    assert (E : (match rest with [] => (8, [48]) | x :: h => match h with [] => (8, 48 :: rest) | h0 :: r => if (48 =? 48) && ((x =? 120) || (x =? 88)) && is_hex_digit h0 then (16, h0 :: r) else (8, 48 :: rest) end end) = (8, 48 :: rest)).
    { destruct rest as [|x [|h r]]; auto. cbn in R.
      assert ((x =? 120) || (x =? 88) = false) as ->; [|reflexivity].
      destruct (x =? 120) eqn:X1; [replace x with 120 in R by lia; discriminate|].
      destruct (x =? 88) eqn:X2; [replace x with 88 in R by lia; discriminate|]. auto. }
    match goal with |- (let '(b, s3) := ?e in _) = _ => replace e with (8, 48 :: rest) end.
    2:{ destruct rest as [|x [|h r]]; auto. }
    change (48 :: rest) with ([48] ++ rest). rewrite (digits_all 8 (fun c => c - 48) [48]); auto.
    constructor; auto. exists 0. cbn. repeat split; lia.
  - match goal with |- (let '(b, s3) := ?e in _) = _ => replace e with (10, (c :: d) ++ rest) end.
    2:{ cbn [app]. destruct (d ++ rest) as [|x [|h r]]; cbn [andb]; auto. }
    rewrite (digits_all 10 (fun c => c - 48) (c :: d)); auto.
    + assert (zlen (c :: d) > 0) by (unfold zlen; cbn [length]; lia).
      replace (0 + zlen (c :: d) =? 0) with false by lia. rewrite D3. rewrite clamp by lia. auto.
    + eapply Forall_impl; [|exact D2]. intros x Hx. cbv beta in Hx. exists (x - 48). unfold digit. replace ((48 <=? x) && (x <=? 57)) with true by lia. repeat split; lia.
Qed.

Lemma hex_digit_ok c : 48 <= c <= 57 \/ 97 <= c <= 102 -> exists d, digit c = Some d /\ d < 16 /\ hex_value c = d.
Proof.
  intros H. unfold digit, hex_value. destruct H.
  - exists (c - 48). replace ((48 <=? c) && (c <=? 57)) with true by lia. replace (c <? 58) with true by lia. repeat split; lia.
  - exists (c - 87). replace ((48 <=? c) && (c <=? 57)) with false by lia. replace ((97 <=? c) && (c <=? 122)) with true by lia.
    replace (c <? 58) with false by lia. repeat split; lia.
Qed.

Lemma fold_hex_nonneg s : Forall (fun c => 48 <= c <= 57 \/ 97 <= c <= 102) s -> forall a, 0 <= a -> 0 <= fold_left (fun a c => a * 16 + hex_value c) s a.
Proof.
  induction 1; intros a Ha; cbn; auto. apply IHForall. unfold hex_value. destruct (x <? 58) eqn:E; lia.
Qed.

Lemma strtol_hex b d v rest : blanks b -> is_hex d v -> v <= LONG_MAX -> stop rest ->
  strtol 0 (b ++ str "0x" ++ d ++ rest) = (v, rest).
Proof.
  intros B (D1 & D2 & D3) L R. destruct d as [|c d]; [congruence|].
  pose proof D2 as D2'. apply Forall_cons_iff in D2'. destruct D2' as (C & D2').
  assert (V0 : 0 <= v) by (rewrite <- D3; apply fold_hex_nonneg; [exact D2|lia]).
  unfold strtol. rewrite skip_blanks; auto.
  2:{ reflexivity. }
  change (str "0x") with [48; 120]. cbn [app].
  cbn [Z.eqb Pos.eqb andb orb].
  assert (is_hex_digit c = true) as ->.
  { unfold is_hex_digit. destruct (hex_digit_ok c C) as (x & -> & Hx & _). lia. }
  change (c :: d ++ rest) with ((c :: d) ++ rest). rewrite (digits_all 16 hex_value (c :: d)); auto.
  + assert (zlen (c :: d) > 0) by (unfold zlen; cbn [length]; lia).
    replace (0 + zlen (c :: d) =? 0) with false by lia. rewrite D3. rewrite clamp by lia. auto.
  + eapply Forall_impl; [|exact D2]. intros x Hx. apply hex_digit_ok. auto.
Qed.

Lemma strtol_number b d v rest : blanks b -> number d v -> v <= LONG_MAX -> stop rest ->
  strtol 0 (b ++ d ++ rest) = (v, rest).
Proof.
  intros B [D|(x & -> & D)] L R; [apply strtol_dec; auto|]. rewrite <- app_assoc. apply strtol_hex; auto.
Qed.

(** First occurrence *)
Lemma after_first c x y : ~ In c x -> after c (x ++ c :: y) = Ok y.
Proof.
  intros H. unfold after. enough (split_at c (x ++ c :: y) = Some (x, y)) as -> by auto.
  induction x as [|d x IH]; cbn.
  - rewrite Z.eqb_refl. auto.
  - replace (d =? c) with false. 2:{ symmetry. apply Z.eqb_neq. intros ->. apply H. left. auto. }
    rewrite IH; auto. intros I. apply H. right. auto.
Qed.
Lemma split_first c x y : ~ In c x -> split_at c (x ++ c :: y) = Some (x, y).
Proof.
  intros H. induction x as [|d x IH]; cbn.
  - rewrite Z.eqb_refl. auto.
  - replace (d =? c) with false. 2:{ symmetry. apply Z.eqb_neq. intros ->. apply H. left. auto. }
    rewrite IH; auto. intros I. apply H. right. auto.
Qed.
Lemma blanks_not b c : blanks b -> c <> 32 -> ~ In c b.
Proof. intros (k & ->) H I. apply repeat_spec in I. congruence. Qed.
Lemma stop_blanks b c r : blanks b -> digit c = None -> stop (b ++ c :: r).
Proof. intros (k & ->) H. destruct k; cbn; auto. Qed.

Lemma is_dec_class o v : is_dec o v -> o <> [] /\ Forall (fun c => dec_class c = true) o.
Proof. intros (H & F & _). split; auto. eapply Forall_impl; [|exact F]. intros c Hc. unfold dec_class. cbv beta in *. lia. Qed.
Lemma is_hex_class o v : is_hex o v -> o <> [] /\ Forall (fun c => hex_class c = true) o.
Proof. intros (H & F & _). split; auto. eapply Forall_impl; [|exact F]. intros c Hc. unfold hex_class, dec_class. cbv beta in *. lia. Qed.
Lemma dec_one n v : is_dec n v -> v = 1 \/ v = 2 \/ v = 4 -> exists c, n = [c] /\ n_class c = true.
Proof.
  intros (D1 & D2 & D3 & D4) H. destruct n as [|c [|d n]]; [congruence| |].
  - cbn in D3. exists c. split; auto. unfold n_class. lia.
  - exfalso. inversion D2 as [|? ? C1 D2']; subst. inversion D2' as [|? ? C2 D2'']; subst. clear D2 D2'.
    cbn [hd] in D4. assert (c <> 48) by (intros ->; specialize (D4 eq_refl); discriminate).
    cbn [fold_left] in H.
    assert (G : forall a, 10 <= a -> 10 <= fold_left (fun a c => a * 10 + (c - 48)) n a).
    { clear -D2''. induction D2''; intros a Ha; cbn; auto. apply IHD2''. lia. }
    specialize (G ((0 * 10 + (c - 48)) * 10 + (d - 48))). lia.
Qed.

Lemma stop_of c r : digit c = None -> stop (c :: r).
Proof. auto. Qed.

Definition item_of (e : expr) : item :=
  mkItem (e_proto e) (e_off e) (e_n e) (match e_mask e with Some m => m | None => 0 end) (e_value e).

(** Reading the text of an expression *)
Lemma parse_denotes s e : denotes s e -> expr_ok e -> zlen s <= 64 -> matchParse s = Ok (inr (item_of e)).
Proof.
  intros (p & o & b1 & b2 & n & m & b3 & b4 & v & Es & HP & HO & HN & HM & HV & B1 & B2 & B3 & B4) (K1 & K2 & K3 & K4 & K5 & K6) LEN.
  unfold matchParse. replace (64 <? zlen s) with false by lia.
  change (str "[") with [91] in Es. change (str ":") with [58] in Es. change (str "]") with [93] in Es. change (str "=") with [61] in Es.
  assert (R : regexec REGEX s = true).
  { apply regex_ok. exists p, o, b1, b2, n, m, b3, b4, v. split; [exact Es|].
    split; [unfold proto_name in HP; tauto|]. split; [eapply is_dec_class; eauto|]. split; [eapply dec_one; eauto|].
    split; [|split; [|auto]].
    - unfold mask_text in HM. destruct (e_mask e); auto. right. destruct HM as (a & b & d & A & B & D & ->).
      exists a, b, d. apply is_hex_class in D. tauto.
    - destruct HV as [D|(d & -> & D)]; [left; eapply is_dec_class; eauto|].
      right. exists d. apply is_hex_class in D. tauto. }
  rewrite R. cbn [negb].
  assert (P : (if starts (str "sctp") s then Some 132 else if starts (str "tcp") s then Some 6 else if starts (str "udp") s then Some 17 else None) = Some (e_proto e)).
  { rewrite Es. destruct HP as [(-> & ->)|[(-> & ->)|(-> & ->)]]; reflexivity. }
  rewrite P. clear P R.
  assert (SZ : header_size (e_proto e) <= 20) by (destruct K1 as [->|[->| ->]]; cbn; lia).
  assert (A1 : after 91 s = Ok ([] ++ o ++ b1 ++ 58 :: b2 ++ n ++ [93] ++ m ++ b3 ++ [61] ++ b4 ++ v)).
  { rewrite Es. apply after_first. destruct HP as [(_ & ->)|[(_ & ->)|(_ & ->)]]; cbn; lia. }
  rewrite A1. cbn [obind]. rewrite (strtol_dec [] o (e_off e)); [|exists 0%nat; reflexivity|exact HO|unfold LONG_MAX; lia|apply stop_blanks; auto].
  rewrite after_first by (apply blanks_not; [auto|lia]). cbn [obind].
  rewrite (strtol_dec b2 n (e_n e)); [|auto|auto|unfold LONG_MAX; lia|cbn; auto].
  assert (U1 : u32 (e_off e) = e_off e) by (unfold u32; apply Z.mod_small; unfold two32; lia).
  assert (U2 : u32 (e_n e) = e_n e) by (unfold u32; apply Z.mod_small; unfold two32; lia).
  assert (U3 : u32 (e_off e + e_n e) = e_off e + e_n e) by (unfold u32; apply Z.mod_small; unfold two32; lia).
  assert (UV : u32 (e_value e) = e_value e) by (unfold u32; apply Z.mod_small; unfold two32, is_u32, UINT_MAX in *; lia).
  rewrite U1, U2, U3.
  replace (negb (e_n e =? 1) && negb (e_n e =? 2) && negb (e_n e =? 4)) with false by lia.
  assert (HL : headerlength (e_proto e) = header_size (e_proto e)) by (destruct K1 as [->|[->| ->]]; reflexivity).
  rewrite HL. replace (header_size (e_proto e) <? e_off e + e_n e) with false by lia.
  assert (NV : forall c, c = 38 \/ c = 61 -> ~ In c (b4 ++ v)).
  { intros c Hc I. apply in_app_or in I. destruct I as [I|I]; [revert I; apply blanks_not; [auto|lia]|].
    destruct HV as [D|(d & -> & D)].
    - apply is_dec_class in D. destruct D as (_ & F). rewrite Forall_forall in F. apply F in I. unfold dec_class in I. lia.
    - apply in_app_or in I. destruct I as [I|I]; [cbn in I; lia|].
      apply is_hex_class in D. destruct D as (_ & F). rewrite Forall_forall in F. apply F in I. unfold hex_class, dec_class in I. lia. }
  assert (FV : strtol 0 (b4 ++ v) = (e_value e, [])).
  { rewrite <- (app_nil_r v). apply strtol_number; [auto|auto|unfold is_u32, UINT_MAX, LONG_MAX in *; lia|cbn; auto]. }
  unfold mask_text in HM. unfold item_of. destruct (e_mask e) as [mk|] eqn:EM.
  - destruct HM as (a & b & d & A & B & D & ->).
    assert (MK : is_u32 mk) by auto.
    assert (UM : u32 mk = mk) by (unfold u32; apply Z.mod_small; unfold two32, is_u32, UINT_MAX in *; lia).
    replace ([93] ++ (a ++ str "&" ++ b ++ str "0x" ++ d) ++ b3 ++ [61] ++ b4 ++ v)
      with ((93 :: a) ++ 38 :: b ++ str "0x" ++ d ++ b3 ++ 61 :: b4 ++ v)
      by (cbn [app]; rewrite <- !app_assoc; reflexivity).
    rewrite split_first. 2:{ intros [I|I]; [lia|]. revert I. apply blanks_not; [auto|lia]. }
    rewrite (strtol_hex b d mk); [|auto|auto|unfold is_u32, UINT_MAX, LONG_MAX in *; lia|apply stop_blanks; auto].
    rewrite after_first by (apply blanks_not; [auto|lia]). cbn [obind]. rewrite FV. cbn [fst]. rewrite UM, UV. auto.
  - subst m. cbn [app].
    rewrite split_at_none.
    2:{ intros x I ->. cbn in I. destruct I as [I|I]; [discriminate|]. apply in_app_or in I. destruct I as [I|I].
        - revert I. apply blanks_not; [auto|lia].
        - destruct I as [I|I]; [discriminate|]. revert I. apply NV. auto. }
    change (93 :: b3 ++ 61 :: b4 ++ v) with ((93 :: b3) ++ 61 :: b4 ++ v).
    rewrite after_first. 2:{ intros [I|I]; [lia|]. revert I. apply blanks_not; [auto|lia]. }
    cbn [obind]. rewrite FV. cbn [fst]. rewrite UV. auto.
Qed.

(** ** Evaluation *)
Lemma headerlength_size p : headerlength p = header_size p.
Proof.
  unfold headerlength. destruct (p =? 132) eqn:E1; [replace p with 132 by lia; auto|].
  destruct (p =? 6) eqn:E2; [replace p with 6 by lia; auto|].
  destruct (p =? 17) eqn:E3; [replace p with 17 by lia; auto|].
  unfold header_size. destruct p as [|q|q]; auto.
  destruct q as [q|q|]; auto; repeat (destruct q as [q|q|]; auto; try lia).
Qed.
Lemma header_size_bound p : 0 <= header_size p <= 20.
Proof. rewrite <- headerlength_size. unfold headerlength. destruct (p =? 132), (p =? 6), (p =? 17); lia. Qed.

Lemma be_network l : forall a, fold_left (fun a b => a * 256 + b) l a = a * 256 ^ zlen l + network l.
Proof.
  induction l as [|b l IH]; intros a.
  - cbn [fold_left network]. unfold zlen. cbn [length]. change (256 ^ Z.of_nat 0) with 1. lia.
  - cbn [fold_left network]. rewrite IH. unfold zlen. cbn [length]. rewrite Nat2Z.inj_succ, Z.pow_succ_r by lia. lia.
Qed.

Definition item_in (i : item) : Prop :=
  (i_nbytes i = 1 \/ i_nbytes i = 2 \/ i_nbytes i = 4) /\ 0 <= i_offset i /\ i_offset i + i_nbytes i <= header_size (i_proto i).

Lemma matchesItem_total i data hdr : item_in i -> 0 <= hdr -> hdr + header_size (i_proto i) <= zlen data ->
  exists b, matchesItem i data hdr = Ok b.
Proof.
  intros (N & O & L) H1 H2. unfold matchesItem. rewrite rdn_range by lia. cbn [obind]. eauto.
Qed.

Lemma matchesItem_ok e data hdr : expr_ok e -> e_mask e <> Some 0 -> 0 <= hdr -> hdr + header_size (e_proto e) <= zlen data ->
  exists b, matchesItem (item_of e) data hdr = Ok b /\ (b = true <-> holds e data hdr).
Proof.
  intros (K1 & K2 & K3 & K4 & K5 & K6) MK H1 H2. unfold matchesItem.
  cbn [item_of i_offset i_nbytes i_mask i_value].
  destruct (at_exists data (hdr + e_off e) (Z.to_nat (e_n e))) as (l & A & LL); [lia|lia|].
  rewrite (rdn_at_n _ _ _ l A LL). cbn [obind]. eexists. split; [reflexivity|].
  unfold be. rewrite be_network, Z.mul_0_l, Z.add_0_l.
  assert (X : (if match e_mask e with Some m => m | None => 0 end =? 0 then network l else Z.land (network l) match e_mask e with Some m => m | None => 0 end) = masked (e_mask e) (network l)).
  { unfold masked. destruct (e_mask e) as [m|]; auto. destruct (m =? 0) eqn:E; auto. assert (m = 0) by lia. congruence. }
  rewrite X. rewrite Z.eqb_eq. split.
  - intros V. exists l. split; auto. unfold zlen. lia.
  - intros (l' & N' & A' & V). replace l with l'; auto.
    destruct A as (_ & _ & <-). destruct A' as (_ & _ & <-). f_equal. unfold zlen in N'. lia.
Qed.

Lemma items_match_total m p data hdr : Forall item_in m -> 0 <= hdr -> hdr + header_size p <= zlen data ->
  exists b, items_match m p data hdr = Ok b.
Proof.
  intros F H1 H2. induction F as [|i m Hi F IH]; cbn [items_match]; [eauto|].
  destruct (i_proto i =? p) eqn:E; auto. assert (i_proto i = p) by lia. subst p.
  destruct (matchesItem_total i data hdr Hi H1 H2) as (b & ->). cbn [obind]. destruct b; eauto.
Qed.

Lemma items_match_ok es p data hdr : Forall expr_ok es -> Forall (fun e => e_mask e <> Some 0) es -> 0 <= hdr -> hdr + header_size p <= zlen data ->
  exists b, items_match (map item_of es) p data hdr = Ok b /\ (b = true <-> accepts es p data hdr).
Proof.
  intros F M H1 H2. unfold accepts. induction F as [|e es He F IH]; cbn [map items_match].
  - exists true. split; auto. split; auto. intros _ e [].
  - apply Forall_cons_iff in M. destruct M as (M1 & M2). destruct (IH M2) as (b & E & HB).
    change (i_proto (item_of e)) with (e_proto e). destruct (e_proto e =? p) eqn:EP.
    + assert (e_proto e = p) by lia. subst p.
      destruct (matchesItem_ok e data hdr He M1 H1 H2) as (b1 & -> & HB1). cbn [obind]. destruct b1.
      * exists b. split; auto. rewrite HB. split.
        -- intros G e' [<-|I] Ep; [apply HB1; auto|auto].
        -- intros G e' I Ep. apply G; auto. right. auto.
      * exists false. split; auto. split; [congruence|]. intros G. apply HB1. apply G; auto. left. auto.
    + exists b. split; auto. rewrite HB. split.
      * intros G e' [<-|I] Ep; [lia|auto].
      * intros G e' I Ep. apply G; auto. right. auto.
Qed.

(** The layer-4 header is found *)
Lemma l4v4 data hl proto s d : ipv4_header data 0 hl proto s d -> 20 < zlen data ->
  l4headerIpv4 data = Ok (if hl + header_size proto <? zlen data then Some (proto, hl) else None).
Proof.
  intros (_ & _ & (b0 & A0 & E0) & H20 & A9 & _) L. unfold l4headerIpv4, in_bounds.
  replace (0 + 20 <? zlen data) with true by lia. cbn [negb].
  apply at_aget in A0, A9. rewrite Z.add_0_l in A9. rewrite A9, A0. cbn [obind]. rewrite E0, headerlength_size.
  destruct (hl + header_size proto <? zlen data); auto.
Qed.
Lemma is_ext_type h : is_ext h = ext_type h.
Proof. unfold is_ext, ext_type. destruct (h =? 0), (h =? 43), (h =? 44), (h =? 60); reflexivity. Qed.
Lemma l4_loop_end fuel data h hdr : ext_type h = false -> l4_loop fuel data h hdr = Ok (Some (h, hdr)).
Proof. intros H. destruct fuel; cbn [l4_loop]; rewrite is_ext_type, H; auto. Qed.
Lemma l4v6 data proto s d : ipv6_header data 0 proto s d -> ext_type proto = false -> 40 < zlen data ->
  l4headerIpv6 data = Ok (if 40 + header_size proto <? zlen data then Some (proto, 40) else None).
Proof.
  intros (_ & _ & A6 & _) X L. unfold l4headerIpv6, in_bounds.
  replace (0 + 40 <? zlen data) with true by lia. cbn [negb].
  apply at_aget in A6. rewrite Z.add_0_l in A6. rewrite A6. cbn [obind]. rewrite l4_loop_end by auto. cbn [obind]. rewrite headerlength_size.
  destruct (40 + header_size proto <? zlen data); auto.
Qed.

(** An IP packet whose layer-4 header is found by [l4] *)
Definition found (eth : Z) (data : list Z) (proto l4 : Z) : Prop :=
  20 <= l4 /\ (if eth =? 2048 then l4headerIpv4 data else l4headerIpv6 data) =
  Ok (if l4 + header_size proto <? zlen data then Some (proto, l4) else None).

Lemma l4_found eth data proto src dst l4 : l4_packet eth data proto src dst l4 -> ext_type proto = false ->
  l4 < zlen data -> found eth data proto l4.
Proof.
  intros [(-> & s4 & d4 & _ & _ & H & _)|(-> & -> & H)] X L.
  - split; [destruct H; tauto|]. cbn [ETH_IP]. change (ETH_IP =? 2048) with true. cbv iota. eapply l4v4; eauto.
    destruct H as (_ & _ & _ & H & _). lia.
  - split; [lia|]. change (ETH_IPV6 =? 2048) with false. cbv iota. eapply l4v6; eauto.
Qed.
Lemma ipv4_first_found data s d id : ipv4_fragment data true s d id ->
  forall hl proto s' d', ipv4_header data 0 hl proto s' d' -> found ETH_IP data proto hl.
Proof.
  intros (_ & L & _) hl proto s' d' H. split; [destruct H; tauto|]. change (ETH_IP =? 2048) with true. cbv iota. eapply l4v4; eauto.
Qed.

Lemma match_found m eth l4arg data proto l4 : found eth data proto l4 -> m <> [] -> (proto = 17 -> l4arg <> 132) ->
  l4 + header_size proto < zlen data -> matchMatches (Some m) eth l4arg data = items_match m proto data l4.
Proof.
  intros (H20 & F) M A L. unfold matchMatches. destruct m as [|i m]; [congruence|]. rewrite F.
  replace (l4 + header_size proto <? zlen data) with true by lia. cbn [obind].
  destruct ((proto =? 17) && (l4arg =? 132)) eqn:E; auto. exfalso. lia.
Qed.
Lemma match_encap m eth data l4 : found eth data 17 l4 -> m <> [] ->
  l4 + 20 < zlen data -> matchMatches (Some m) eth 132 data = items_match m 132 data (l4 + 8).
Proof.
  intros (H20 & F) M L. unfold matchMatches. destruct m as [|i m]; [congruence|]. rewrite F.
  change (header_size 17) with 8. replace (l4 + 8 <? zlen data) with true by lia. cbn [obind].
  change ((17 =? 17) && (132 =? 132)) with true. cbv iota. unfold in_bounds. change (headerlength 132) with 12.
  replace (l4 + 8 + 12 <? zlen data) with true by lia. auto.
Qed.

(** Reading several expressions *)
Lemma add_texts_ok ss es : Forall2 denotes ss es -> Forall expr_ok es -> Forall (fun s => zlen s <= 64) ss ->
  forall m, add_texts m ss = Ok (inr (m ++ map item_of es)).
Proof.
  intros F. induction F as [|s e ss es D F IH]; intros K L m; cbn [add_texts map].
  - rewrite app_nil_r. auto.
  - apply Forall_cons_iff in K, L. destruct K as (K1 & K2), L as (L1 & L2). unfold matchAdd.
    rewrite (parse_denotes s e) by auto. cbn [obind]. rewrite IH by auto. rewrite <- app_assoc. auto.
Qed.

Lemma match_packet ss es : Forall2 denotes ss es -> Forall expr_ok es -> Forall (fun e => e_mask e <> Some 0) es ->
  Forall (fun s => zlen s <= 64) ss ->
  exists m, add_texts matchCreate ss = Ok (inr m) /\
    (forall eth data proto l4 l4arg, found eth data proto l4 -> l4 + header_size proto < zlen data -> (proto = 17 -> l4arg <> 132) ->
       exists b, matchMatches (Some m) eth l4arg data = Ok b /\ (b = true <-> accepts es proto data l4)) /\
    (forall eth data l4, found eth data 17 l4 -> l4 + 20 < zlen data ->
       exists b, matchMatches (Some m) eth 132 data = Ok b /\ (b = true <-> accepts es 132 data (l4 + 8))).
Proof.
  intros D K M L. exists (map item_of es). split; [|split].
  - apply (add_texts_ok ss es D K L []).
  - intros eth data proto l4 l4arg F LL A. destruct es as [|e es].
    + exists true. split; auto. split; auto. intros _ e [].
    + rewrite (match_found _ _ _ _ proto l4); auto; [|cbn; congruence].
      apply items_match_ok; auto; destruct F; lia.
  - intros eth data l4 F LL. destruct es as [|e es].
    + exists true. split; auto. split; auto. intros _ e [].
    + rewrite (match_encap _ _ _ l4); auto; [|cbn; congruence].
      apply items_match_ok; auto; destruct F; [lia|]. change (header_size 132) with 12. lia.
Qed.

(** ** No packet makes the evaluation fail *)
Lemma l4_loop_total fuel : forall data h hdr, Forall (fun b => 0 <= b < 256) data -> 0 <= hdr ->
  0 < Z.of_nat fuel -> zlen data - hdr <= Z.of_nat fuel ->
  exists r, l4_loop fuel data h hdr = Ok r /\ forall p o, r = Some (p, o) -> 0 <= o.
Proof.
  induction fuel as [|f IH]; intros data h hdr B H1 H0 H2; [lia|]. cbn [l4_loop].
  destruct (is_ext h); cbn [negb].
  2:{ eexists; split; [reflexivity|]. intros p o E. injection E as <- <-. auto. }
  destruct (h =? 44); [eexists; split; [reflexivity|congruence]|].
  destruct (in_bounds hdr 2 (zlen data)) eqn:IB; cbn [negb]; [|eexists; split; [reflexivity|congruence]].
  unfold in_bounds in IB.
  destruct (at_exists data hdr 1) as ([|x [|? ?]] & A & LA); [lia|lia|discriminate| |discriminate].
  destruct (at_exists data (hdr + 1) 1) as ([|l [|? ?]] & A' & LA'); [lia|lia|discriminate| |discriminate].
  rewrite (at_aget _ _ _ A), (at_aget _ _ _ A'). cbn [obind].
  assert (0 <= l < 256).
  { rewrite Forall_forall in B. apply B. destruct A' as (_ & _ & E). cbn [length] in E.
    rewrite <- (firstn_skipn (Z.to_nat (hdr + 1)) data). apply in_or_app. right.
    destruct (skipn (Z.to_nat (hdr + 1)) data); [discriminate|]. cbn in E. injection E as ->. left. auto. }
  destruct (l =? 0) eqn:L0; [eexists; split; [reflexivity|congruence]|].
  apply IH; auto; lia.
Qed.

Lemma match_total m eth l4arg data : Forall item_in m -> Forall (fun b => 0 <= b < 256) data ->
  exists b, matchMatches (Some m) eth l4arg data = Ok b.
Proof.
  intros F B. unfold matchMatches. destruct m as [|i m]; [eauto|].
  assert (H : exists r, (if eth =? 2048 then l4headerIpv4 data else l4headerIpv6 data) = Ok r /\
              forall p o, r = Some (p, o) -> 0 <= o /\ o + header_size p < zlen data).
  { destruct (eth =? 2048).
    - unfold l4headerIpv4, in_bounds. destruct (0 + 20 <? zlen data) eqn:E; cbn [negb]; [|eexists; split; [reflexivity|congruence]].
      destruct (at_exists data 9 1) as ([|x [|? ?]] & A & LA); [lia|lia|discriminate| |discriminate].
      destruct (at_exists data 0 1) as ([|l [|? ?]] & A' & LA'); [lia|lia|discriminate| |discriminate].
      rewrite (at_aget _ _ _ A), (at_aget _ _ _ A'). cbn [obind]. rewrite headerlength_size.
      destruct (4 * (l mod 16) + header_size x <? zlen data) eqn:E2; cbn [negb]; (eexists; split; [reflexivity|]); [|congruence].
      intros p o Q. assert (QE : x = p /\ 4 * (l mod 16) = o) by (split; congruence). destruct QE as (<- & <-).
      pose proof (Z.mod_pos_bound l 16). lia.
    - unfold l4headerIpv6, in_bounds. destruct (0 + 40 <? zlen data) eqn:E; cbn [negb]; [|eexists; split; [reflexivity|congruence]].
      destruct (at_exists data 6 1) as ([|x [|? ?]] & A & LA); [lia|lia|discriminate| |discriminate].
      rewrite (at_aget _ _ _ A). cbn [obind].
      destruct (l4_loop_total (length data) data x 40 B) as (r & -> & R); [lia| | |]; try (unfold zlen in *; lia).
      cbn [obind]. destruct r as [[p o]|]; [|eexists; split; [reflexivity|congruence]].
      specialize (R p o eq_refl). rewrite headerlength_size.
      destruct (o + header_size p <? zlen data) eqn:E2; cbn [negb]; (eexists; split; [reflexivity|]); [|congruence].
      intros p' o' Q. injection Q as <- <-. lia. }
  destruct H as (r & -> & H). cbn [obind]. destruct r as [[p o]|]; [|eauto].
  destruct (H p o eq_refl) as (H1 & H2).
  destruct ((p =? 17) && (l4arg =? 132)).
  - unfold in_bounds. change (headerlength 132) with 12. destruct (o + 8 + 12 <? zlen data) eqn:E; cbn [negb]; [|eauto].
    apply items_match_total; auto; [lia|]. change (header_size 132) with 12. lia.
  - apply items_match_total; auto. lia.
Qed.

(** The wrap-around: an accepted expression far outside the header. *)
Lemma wrap_accepted : matchParse (str "tcp[4294967295:1]=0") = Ok (inr (mkItem 6 4294967295 1 0 0)).
Proof. vm_compute. reflexivity. Qed.
Lemma wrap_reads eth data s d l4 : l4_packet eth data 6 s d l4 -> l4 + 20 < zlen data -> zlen data <= 65535 ->
  matchMatches (Some [mkItem 6 4294967295 1 0 0]) eth 6 data = UB.
Proof.
  intros H L B. pose proof (l4_found _ _ _ _ _ _ H eq_refl) as F. destruct F as (H20 & F); [lia|].
  rewrite (match_found _ _ _ _ 6 l4); [|split; auto|congruence|lia|auto].
  cbn [items_match i_proto Z.eqb Pos.eqb]. unfold matchesItem. cbn [i_offset i_nbytes]. unfold rdn.
  replace (l4 + 4294967295 + Z.of_nat (Z.to_nat 1) <=? zlen data) with false by lia.
  rewrite Bool.andb_false_r. auto.
Qed.

(** ** Printing *)
Lemma hex_aux_ok fuel : forall v acc, 0 <= v < 16 ^ Z.of_nat fuel -> (0 < fuel)%nat ->
  exists d, hex_aux fuel v acc = d ++ acc /\ is_hex d v /\ (length d <= fuel)%nat.
Proof.
  induction fuel as [|f IH]; intros v acc H F; [lia|]. cbn [hex_aux].
  assert (HC : forall x, 0 <= x < 16 -> (48 <= hexchar x <= 57 \/ 97 <= hexchar x <= 102) /\ hex_value (hexchar x) = x).
  { intros x Hx. unfold hexchar, hex_value. destruct (x <? 10) eqn:E.
    - split; [lia|]. replace (48 + x <? 58) with true by lia. lia.
    - split; [lia|]. replace (87 + x <? 58) with false by lia. lia. }
  pose proof (Z.mod_pos_bound v 16 ltac:(lia)) as MB.
  destruct (v <? 16) eqn:E.
  - exists [hexchar (v mod 16)]. split; auto. split; [|cbn; lia]. rewrite (Z.mod_small v 16) by lia. destruct (HC v) as (H1 & H2); [lia|].
    split; [congruence|]. split; [constructor; auto|]. cbn [fold_left]. lia.
  - destruct (IH (v / 16) (hexchar (v mod 16) :: acc)) as (d & E1 & (D1 & D2 & D3) & D4).
    { split; [apply Z.div_pos; lia|]. apply Z.div_lt_upper_bound; [lia|].
      rewrite Nat2Z.inj_succ, Z.pow_succ_r in H by lia. lia. }
    { destruct f; [|lia]. cbn in H. lia. }
    exists (d ++ [hexchar (v mod 16)]). rewrite E1, <- app_assoc. split; auto.
    destruct (HC (v mod 16) MB) as (H1 & H2). split.
    + split; [destruct d; cbn; congruence|]. split; [apply Forall_app; split; auto|].
      rewrite fold_left_app. cbn [fold_left]. rewrite D3, H2. pose proof (Z.div_mod v 16). lia.
    + rewrite app_length. cbn. lia.
Qed.
Lemma hex_ok v : is_u32 v -> is_hex (hex v) v /\ (length (hex v) <= 8)%nat.
Proof.
  intros H. destruct (hex_aux_ok 8 v []) as (d & E & D & L); [cbn; unfold is_u32, UINT_MAX in *; lia|lia|].
  unfold hex. rewrite E, app_nil_r. auto.
Qed.
Lemma dec_aux_length fuel : forall v acc, (length (dec_aux fuel v acc) <= fuel + length acc)%nat.
Proof.
  induction fuel as [|f IH]; intros v acc; cbn [dec_aux]; [lia|]. destruct (v <? 10); [cbn; lia|].
  specialize (IH (v / 10) ((48 + v mod 10) :: acc)). cbn [length] in IH. lia.
Qed.

Definition item_ok (i : item) : Prop :=
  is_l4proto (i_proto i) /\ item_in i /\ is_u32 (i_mask i) /\ is_u32 (i_value i).

Lemma expr_of_ok i : item_ok i -> expr_ok (expr_of i) /\ e_mask (expr_of i) <> Some 0 /\ item_of (expr_of i) = i.
Proof.
  intros (P & (N & O & L) & M & V). unfold expr_ok, expr_of, item_of. cbn [e_proto e_n e_off e_value e_mask].
  destruct i as [p o n m v]. cbn in *. destruct (m =? 0) eqn:E.
  - assert (m = 0) by lia. subst. split; [|split; [congruence|auto]].
    split; [auto|]. split; [auto|]. split; [auto|]. split; [auto|]. split; [auto|]. congruence.
  - split; [|split; [injection 1; lia|auto]].
    split; [auto|]. split; [auto|]. split; [auto|]. split; [auto|]. split; [auto|]. intros x Hx. injection Hx as <-. auto.
Qed.

Lemma item_text_denotes i : item_ok i -> denotes (item_text i) (expr_of i) /\ zlen (item_text i) <= 64.
Proof.
  intros (P & (N & O & L) & M & V). pose proof (header_size_bound (i_proto i)) as HB.
  assert (B0 : blanks []) by (exists 0%nat; auto).
  split.
  - exists (protostring (i_proto i)), (dec (i_offset i)), [], [], (dec (i_nbytes i)),
      (if i_mask i =? 0 then [] else str "&0x" ++ hex (i_mask i)), [], [], (str "0x" ++ hex (i_value i)).
    split; [reflexivity|]. split; [unfold proto_name, expr_of; cbn [e_proto]; destruct P as [->|[->| ->]]; cbn; auto|].
    split; [apply dec_ok; unfold is_u32, UINT_MAX; cbn; lia|].
    split; [apply dec_ok; unfold is_u32, UINT_MAX; cbn; lia|].
    split; [|split; [|auto]].
    + cbn [expr_of e_mask]. destruct (i_mask i =? 0); cbn [mask_text]; auto.
      exists [], [], (hex (i_mask i)). split; auto. split; auto. split; auto. apply hex_ok. auto.
    + right. exists (hex (i_value i)). split; auto. apply hex_ok. auto.
  - destruct (hex_ok _ M) as (_ & LM). destruct (hex_ok _ V) as (_ & LV).
    pose proof (dec_aux_length 10 (i_offset i) []) as LO. pose proof (dec_aux_length 10 (i_nbytes i) []) as LN.
    assert (LP : (length (protostring (i_proto i)) <= 4)%nat) by (destruct P as [->|[->| ->]]; cbn; lia).
    unfold item_text, zlen, dec. cbn [length] in LO, LN. destruct (i_mask i =? 0); rewrite ?app_length; cbn [str length]; lia.
Qed.

Lemma item_text_parse i : item_ok i -> matchParse (item_text i) = Ok (inr i).
Proof.
  intros H. destruct (item_text_denotes i H) as (D & L). destruct (expr_of_ok i H) as (K & _ & E).
  rewrite (parse_denotes _ _ D K L), E. auto.
Qed.

Lemma item_text_chars i : item_ok i -> Forall (fun c => c <> 0 /\ c <> 44) (item_text i) /\ 5 <= zlen (item_text i).
Proof.
  intros (P & (N & O & L) & M & V). pose proof (header_size_bound (i_proto i)) as HB.
  assert (DC : forall v, is_u32 v -> Forall (fun c => c <> 0 /\ c <> 44) (dec v)).
  { intros v Hv. destruct (dec_ok v Hv) as (_ & F & _). eapply Forall_impl; [|exact F]. intros c Hc. cbv beta in *. lia. }
  assert (HC : forall v, is_u32 v -> Forall (fun c => c <> 0 /\ c <> 44) (hex v)).
  { intros v Hv. destruct (hex_ok v Hv) as ((_ & F & _) & _). eapply Forall_impl; [|exact F]. intros c Hc. cbv beta in *. lia. }
  assert (O' : is_u32 (i_offset i)) by (unfold is_u32, UINT_MAX; lia).
  assert (N' : is_u32 (i_nbytes i)) by (unfold is_u32, UINT_MAX; lia).
  assert (ST : forall l, forallb (fun c => negb (c =? 0) && negb (c =? 44)) l = true -> Forall (fun c => c <> 0 /\ c <> 44) l).
  { intros l Hl. rewrite forallb_forall in Hl. apply Forall_forall. intros c Hc. apply Hl in Hc. lia. }
  unfold item_text. split.
  - rewrite !Forall_app. repeat apply conj; auto; try (apply ST; reflexivity).
    + apply ST. destruct P as [->|[->| ->]]; reflexivity.
    + destruct (i_mask i =? 0); [constructor|]. apply Forall_app. split; [apply ST; reflexivity|auto].
  - unfold zlen. rewrite !app_length. cbn [str length]. lia.
Qed.

(** The buffer is [pre], a 0, and anything. *)
Fixpoint more (l : list chars) : chars :=
  match l with [] => [] | s :: l' => 44 :: s ++ more l' end.
Lemma commas_more s l : commas (s :: l) = s ++ more l.
Proof. revert s. induction l as [|t l IH]; intros s; [cbn; rewrite app_nil_r; auto|].
  change (commas (s :: t :: l)) with (s ++ str "," ++ commas (t :: l)). rewrite IH. auto. Qed.

Lemma snprintf_fits pre rest s : zlen s < zlen rest ->
  exists t, snprintf (pre ++ rest) (zlen pre) (zlen rest) s = Ok (pre ++ s ++ 0 :: t) /\ zlen (s ++ 0 :: t) = zlen rest.
Proof.
  intros H. unfold snprintf. rewrite firstn_all2 by (unfold zlen in *; lia).
  assert (LZ : zlen (pre ++ rest) = zlen pre + zlen rest) by (unfold zlen; rewrite app_length; lia).
  assert (LS : zlen (s ++ [0]) = zlen s + 1) by (unfold zlen; rewrite app_length; cbn [length]; lia).
  rewrite wr_ok; [|unfold zlen; lia|lia].
  exists (skipn (length s + 1) rest). split.
  - f_equal. rewrite firstn_app, firstn_all2 by (unfold zlen; lia). unfold zlen at 1. rewrite Nat2Z.id, Nat.sub_diag. cbn [firstn].
    rewrite app_nil_r, <- app_assoc. cbn [app]. do 3 f_equal. rewrite skipn_app, skipn_all2 by (unfold zlen in *; lia). cbn [app].
    f_equal. unfold zlen in *. lia.
  - unfold zlen in *. rewrite app_length. cbn [length]. rewrite skipn_length. lia.
Qed.
Lemma snprintf_cut pre rest s : zlen rest <= zlen s -> 0 < zlen rest ->
  exists b, snprintf (pre ++ rest) (zlen pre) (zlen rest) s = Ok b /\ zlen b = zlen (pre ++ rest).
Proof.
  intros H H0. unfold snprintf.
  assert (LZ : zlen (pre ++ rest) = zlen pre + zlen rest) by (unfold zlen; rewrite app_length; lia).
  assert (LS : zlen (firstn (Z.to_nat (Z.min (zlen rest - 1) (zlen s))) s ++ [0]) = zlen rest).
  { unfold zlen in *. rewrite app_length, firstn_length. cbn [length]. lia. }
  rewrite wr_ok; [|unfold zlen; lia|lia]. eexists. split; [reflexivity|].
  revert LS. generalize (firstn (Z.to_nat (Z.min (zlen rest - 1) (zlen s))) s ++ [0]). intros w LS. rewrite LS.
  unfold zlen in *. rewrite !app_length, firstn_length, skipn_length. lia.
Qed.
Lemma zupd_mid (a b : list Z) x y : zupd (a ++ x :: b) (Z.of_nat (length a)) y = a ++ y :: b.
Proof.
  unfold zupd. replace (Z.of_nat (length a) <? 0) with false by lia. rewrite Nat2Z.id. induction a as [|c a IH]; cbn; congruence.
Qed.
Lemma zlen_app {A} (a b : list A) : zlen (a ++ b) = zlen a + zlen b.
Proof. unfold zlen. rewrite app_length. lia. Qed.

Lemma print_more m : Forall item_ok m -> forall pre rest, pre <> [] -> 0 < zlen rest ->
  (exists t, rest = 0 :: t) ->
  exists b rc, print_items m (pre ++ rest) (zlen pre) = Ok (b, rc) /\ zlen b = zlen (pre ++ rest) /\
    ((zlen (more (map item_text m)) < zlen rest /\ rc = 0 /\ exists t, b = pre ++ more (map item_text m) ++ 0 :: t) \/
     (zlen rest <= zlen (more (map item_text m)) /\ rc = 1)).
Proof.
  induction 1 as [|i m Hi Hm IH]; intros pre rest P R (t0 & ER); cbn [print_items map more].
  - exists (pre ++ rest), 0. split; auto. split; auto. left. split; [unfold zlen in *; cbn; lia|]. split; auto. exists t0. subst. auto.
  - destruct (item_text_chars i Hi) as (_ & LT).
    replace (zlen (pre ++ rest) - zlen pre) with (zlen rest) by (rewrite zlen_app; lia).
    assert (PP : 0 < zlen pre) by (destruct pre; [congruence|unfold zlen; cbn [length]; lia]).
    replace (zlen rest <? zlen (pre ++ rest)) with true by (rewrite zlen_app; lia). cbn [andb].
    assert (LM : zlen (44 :: item_text i ++ more (map item_text m)) = 1 + zlen (item_text i) + zlen (more (map item_text m))).
    { unfold zlen. cbn [length]. rewrite app_length. lia. }
    assert (LM0 : 0 <= zlen (more (map item_text m))) by (unfold zlen; lia).
    destruct (2 <? zlen rest) eqn:E2.
    + assert (A : aset (pre ++ rest) (zlen pre) 44 = Ok ((pre ++ [44]) ++ t0)).
      { rewrite aset_in_range by (rewrite zlen_app; unfold zlen in *; lia). f_equal. subst rest. rewrite <- app_assoc. unfold zlen. apply zupd_mid. }
      rewrite A. cbn [obind].
      assert (LR : zlen rest = 1 + zlen t0) by (subst rest; unfold zlen; cbn [length]; lia).
      replace (zlen pre + 1) with (zlen (pre ++ [44])) by (rewrite zlen_app; reflexivity).
      replace (zlen ((pre ++ [44]) ++ t0) - zlen (pre ++ [44])) with (zlen t0) by (rewrite (zlen_app (pre ++ [44])); lia).
      assert (LPR : zlen ((pre ++ [44]) ++ t0) = zlen (pre ++ rest)) by (rewrite !zlen_app; unfold zlen at 2; cbn [length]; lia).
      destruct (zlen t0 <=? zlen (item_text i)) eqn:EC.
      * destruct (snprintf_cut (pre ++ [44]) t0 (item_text i)) as (b & Eb & Lb); [lia|lia|]. rewrite Eb. cbn [obind].
        exists b, 1. split; auto. split; [lia|]. right. split; [lia|auto].
      * destruct (snprintf_fits (pre ++ [44]) t0 (item_text i)) as (t & Eb & Lb); [lia|]. rewrite Eb. cbn [obind].
        rewrite app_assoc. replace (zlen (pre ++ [44]) + zlen (item_text i)) with (zlen ((pre ++ [44]) ++ item_text i)) by (rewrite (zlen_app (pre ++ [44])); lia).
        destruct (IH ((pre ++ [44]) ++ item_text i) (0 :: t)) as (b & rc & Ep & Lp & HH).
        { destruct pre; cbn; congruence. }
        { unfold zlen. cbn [length]. lia. }
        { eauto. }
        rewrite Ep. exists b, rc. split; auto.
        rewrite (zlen_app (item_text i)) in Lb. rewrite (zlen_app ((pre ++ [44]) ++ item_text i)), (zlen_app (pre ++ [44])) in Lp. rewrite (zlen_app (pre ++ [44])) in LPR.
        split; [lia|].
        destruct HH as [(H1 & -> & t' & ->)|(H1 & ->)].
        -- left. split; [lia|]. split; auto. exists t'. rewrite <- !app_assoc. cbn [app]. rewrite <- app_assoc. auto.
        -- right. split; [lia|auto].
    + cbn [obind]. replace (zlen (pre ++ rest) - zlen pre) with (zlen rest) by (rewrite zlen_app; lia).
      destruct (snprintf_cut pre rest (item_text i)) as (b & Eb & Lb); [lia|lia|]. rewrite Eb. cbn [obind].
      replace (zlen rest <=? zlen (item_text i)) with true by lia.
      exists b, 1. split; auto. split; auto. right. split; [lia|auto].
Qed.

Lemma cstring_app s t : Forall (fun c => c <> 0 /\ c <> 44) s -> cstring (s ++ t) = s ++ cstring t.
Proof. induction 1; cbn [app cstring]; auto. replace (x =? 0) with false by lia. congruence. Qed.
Lemma cstring_more l t : Forall (fun s => Forall (fun c => c <> 0 /\ c <> 44) s) l -> cstring (more l ++ 0 :: t) = more l.
Proof.
  induction 1 as [|s l F FF IH]; [reflexivity|]. cbn [more app cstring]. change (44 =? 0) with false. cbv iota.
  rewrite <- app_assoc, cstring_app by auto. rewrite IH. auto.
Qed.

Lemma matchString_ok m buf : Forall item_ok m -> 0 < zlen buf ->
  exists b rc, matchString m buf = Ok (b, rc) /\ zlen b = zlen buf /\
    ((zlen (commas (map item_text m)) < zlen buf /\ rc = 0 /\ cstring b = commas (map item_text m)) \/
     (zlen buf <= zlen (commas (map item_text m)) /\ rc = 1)).
Proof.
  intros F L. unfold matchString. replace (zlen buf =? 0) with false by lia.
  destruct buf as [|c buf]; [unfold zlen in L; cbn in L; lia|].
  rewrite aset_in_range by lia. cbn [obind]. change (zupd (c :: buf) 0 0) with (0 :: buf).
  assert (L0 : zlen (0 :: buf) = zlen (c :: buf)) by reflexivity. rewrite <- L0 in L |- *.
  destruct F as [|i m Hi Hm].
  - exists (0 :: buf), 0. auto 6.
  - cbn [print_items]. rewrite Z.sub_0_r, Z.ltb_irrefl. cbn [andb obind]. rewrite Z.sub_0_r.
    change (map item_text (i :: m)) with (item_text i :: map item_text m). rewrite commas_more, zlen_app.
    destruct (item_text_chars i Hi) as (NZ & LT).
    assert (LM0 : 0 <= zlen (more (map item_text m))) by (unfold zlen; lia).
    destruct (zlen (0 :: buf) <=? zlen (item_text i)) eqn:EC.
    + destruct (snprintf_cut [] (0 :: buf) (item_text i)) as (b & Eb & Lb); [lia|lia|]. change (zlen []) with 0 in Eb. cbn [app] in Eb. rewrite Eb. cbn [obind].
      exists b, 1. split; auto. split; [exact Lb|]. right. split; [lia|auto].
    + destruct (snprintf_fits [] (0 :: buf) (item_text i)) as (t & Eb & Lb); [lia|]. change (zlen []) with 0 in Eb. cbn [app] in Eb. rewrite Eb. cbn [obind].
      rewrite Z.add_0_l.
      destruct (print_more m Hm (item_text i) (0 :: t)) as (b & rc & Ep & Lp & HH).
      { intros E. rewrite E in LT. unfold zlen in LT. cbn in LT. lia. }
      { unfold zlen. cbn [length]. lia. }
      { eauto. }
      rewrite Ep. exists b, rc. split; auto. split; [lia|]. rewrite zlen_app in Lb.
      destruct HH as [(H1 & -> & t' & ->)|(H1 & ->)].
      * left. split; [lia|]. split; auto. rewrite cstring_app by auto. f_equal. apply cstring_more.
        apply Forall_map. eapply Forall_impl; [|exact Hm]. intros x Hx. apply item_text_chars. auto.
      * right. split; [lia|auto].
Qed.

Lemma add_items m : Forall item_ok m -> forall m0, add_texts m0 (map item_text m) = Ok (inr (m0 ++ m)).
Proof.
  induction 1 as [|i m Hi Hm IH]; intros m0; cbn [map add_texts]; [rewrite app_nil_r; auto|].
  unfold matchAdd. rewrite item_text_parse by auto. cbn [obind]. rewrite IH, <- app_assoc. auto.
Qed.

(** ** Syntax *)
Lemma dec_class_iff s : (s <> [] /\ Forall (fun c => dec_class c = true) s) <-> dec_digits s.
Proof.
  unfold dec_digits. apply and_iff_compat_l. rewrite !Forall_forall. unfold dec_class.
  split; intros H c I; specialize (H c I); cbv beta in *; lia.
Qed.
Lemma hex_class_iff s : (s <> [] /\ Forall (fun c => hex_class c = true) s) <-> hex_digits s.
Proof.
  unfold hex_digits. apply and_iff_compat_l. rewrite !Forall_forall. unfold hex_class, dec_class.
  split; intros H c I; specialize (H c I); cbv beta in *; lia.
Qed.
Lemma shape_iff s : regexec REGEX s = true <-> shape s.
Proof.
  rewrite regex_ok. unfold regex_parts, shape. split.
  - intros (p & o & b1 & b2 & n & m & b3 & b4 & v & E & P & O & (c & N & NC) & M & V & B).
    exists p, o, b1, b2, n, m, b3, b4, v. split; [exact E|]. split; [exact P|]. rewrite dec_class_iff in O. split; [exact O|].
    split.
    { unfold n_class in NC. subst n. change (str "1") with [49]. change (str "2") with [50]. change (str "4") with [52].
      destruct (c =? 49) eqn:E1; [left; f_equal; lia|].
      destruct (c =? 50) eqn:E2; [right; left; f_equal; lia|]. right. right. f_equal. lia. }
    split.
    { destruct M as [M|(a & b & d & M & A & B' & D1 & D2)]; auto. right. exists a, b, d. rewrite <- hex_class_iff. auto. }
    split; [|exact B].
    destruct V as [V|(d & V & D1 & D2)]; [left; apply dec_class_iff; auto|]. right. exists d. rewrite <- hex_class_iff. auto.
  - intros (p & o & b1 & b2 & n & m & b3 & b4 & v & E & P & O & N & M & V & B).
    exists p, o, b1, b2, n, m, b3, b4, v. split; [exact E|]. split; [exact P|]. rewrite dec_class_iff. split; [exact O|].
    split; [destruct N as [->|[->| ->]]; eexists; split; reflexivity|].
    split.
    { destruct M as [M|(a & b & d & M & A & B' & D)]; auto. right. exists a, b, d. rewrite <- hex_class_iff in D. tauto. }
    split; [|exact B].
    destruct V as [V|(d & V & D)]; [left; apply dec_class_iff; auto|]. right. exists d. rewrite <- hex_class_iff in D. tauto.
Qed.

Lemma parse_shape s i : matchParse s = Ok (inr i) -> shape s /\ zlen s <= 64.
Proof.
  unfold matchParse. destruct (64 <? zlen s) eqn:E; [discriminate|].
  destruct (regexec REGEX s) eqn:R; [|discriminate]. intros _. apply shape_iff in R. split; auto. lia.
Qed.
Lemma shape_parse s : shape s -> zlen s <= 64 ->
  matchParse s = Ok (inl "Out of bounds"%string) \/ exists i, matchParse s = Ok (inr i).
Proof.
  intros H L. destruct (matchParse_total s) as ([e|i] & E); [|eauto]. left. rewrite E. do 2 f_equal. revert E.
  pose proof H as HH. apply shape_iff in H. unfold matchParse. replace (64 <? zlen s) with false by lia. rewrite H. cbn [negb].
  destruct HH as (p & o & b1 & b2 & n & m & b3 & b4 & v & -> & P & O & N & M & V & B1 & B2 & B3 & B4).
  change (str "[") with [91]. change (str ":") with [58]. change (str "]") with [93]. change (str "=") with [61].
  match goal with |- context [match ?e with None => _ | Some _ => _ end] => destruct e as [PP|] eqn:EP end.
  2:{ destruct P as [->|[->| ->]]; discriminate. }
  change ([91] ++ ?x) with (91 :: x). rewrite after_first by (destruct P as [->|[->| ->]]; cbn; lia). cbn [obind].
  destruct (strtol 0 (o ++ b1 ++ [58] ++ b2 ++ n ++ [93] ++ m ++ b3 ++ [61] ++ b4 ++ v)) as [off e1] eqn:S1.
  destruct (strtol_suffix _ _ _ _ (o ++ b1) 58 (b2 ++ n ++ [93] ++ m ++ b3 ++ [61] ++ b4 ++ v) S1) as (z2 & Ez).
  { left. auto. } { rewrite <- !app_assoc. auto. }
  (* what strtol leaves has no colon before the one after the offset *)
  assert (NC : ~ In 58 z2).
  { intros I. assert (SX : exists q, o ++ b1 ++ [58] ++ b2 ++ n ++ [93] ++ m ++ b3 ++ [61] ++ b4 ++ v = q ++ e1) by (eapply strtol_is_suffix; eauto).
    destruct SX as (q & SX). rewrite Ez in SX.
    assert (SX' : (o ++ b1) ++ 58 :: (b2 ++ n ++ [93] ++ m ++ b3 ++ [61] ++ b4 ++ v) = (q ++ z2) ++ 58 :: (b2 ++ n ++ [93] ++ m ++ b3 ++ [61] ++ b4 ++ v)) by (rewrite <- !app_assoc; exact SX).
    apply app_inv_tail in SX'. assert (I' : In 58 (o ++ b1)) by (rewrite SX'; apply in_or_app; auto).
    apply in_app_or in I'. destruct I' as [I'|I']; [|revert I'; apply blanks_not; [auto|lia]].
    destruct O as (_ & O). rewrite Forall_forall in O. apply O in I'. lia. }
  rewrite Ez, after_first by auto. cbn [obind].
  assert (S2 : exists nb, strtol 0 (b2 ++ n ++ [93] ++ m ++ b3 ++ [61] ++ b4 ++ v) = (nb, [93] ++ m ++ b3 ++ [61] ++ b4 ++ v) /\ (nb = 1 \/ nb = 2 \/ nb = 4)).
  { assert (K : exists nb, is_dec n nb /\ (nb = 1 \/ nb = 2 \/ nb = 4)).
    { assert (D : forall c, 48 < c <= 57 -> is_dec [c] (c - 48)).
      { intros c Hc. split; [congruence|]. split; [constructor; [lia|constructor]|]. split; [cbn; lia|cbn; lia]. }
      destruct N as [->|[->| ->]]; [exists 1|exists 2|exists 4]; (split; [|auto]).
      - apply (D 49). lia.
      - apply (D 50). lia.
      - apply (D 52). lia. }
    destruct K as (nb & K & K'). exists nb. split; auto. apply strtol_dec; auto; [unfold LONG_MAX; lia|reflexivity]. }
  destruct S2 as (nb & -> & NB). assert (UN : u32 nb = nb) by (unfold u32; apply Z.mod_small; unfold two32; lia). rewrite UN.
  replace (negb (nb =? 1) && negb (nb =? 2) && negb (nb =? 4)) with false by lia.
  destruct (headerlength PP <? u32 (u32 off + nb)); [congruence|].
  match goal with |- context [let '(_, _) := ?e in _] => destruct e as [mask e3] end.
  destruct (after 61 e3); cbn [obind]; discriminate.
Qed.

(** ** Statements used by the properties *)
Lemma add_texts_items ss : forall m0 m, add_texts m0 ss = Ok (inr m) ->
  exists m1, m = m0 ++ m1 /\ Forall (fun i => exists s, matchParse s = Ok (inr i)) m1.
Proof.
  induction ss as [|s ss IH]; intros m0 m H; cbn [add_texts] in H.
  - injection H as <-. exists []. rewrite app_nil_r. auto.
  - unfold matchAdd in H. destruct (matchParse s) as [[e|i]| | |] eqn:E; cbn [obind] in H; try discriminate.
    apply IH in H. destruct H as (m1 & -> & F). exists (i :: m1). rewrite <- app_assoc. split; auto. constructor; eauto.
Qed.
Lemma parsed_ok s i : matchParse s = Ok (inr i) -> no_wrap i -> item_ok i.
Proof.
  intros H W. apply matchParse_item in H. destruct H as (P & N & O & M & V & L).
  unfold no_wrap in W. unfold item_ok, item_in, is_u32 in *. unfold u32 in L. rewrite Z.mod_small in L by lia.
  split; [auto|]. split; [|auto]. split; [auto|]. lia.
Qed.
Lemma stored_ok ss m : add_texts matchCreate ss = Ok (inr m) -> Forall no_wrap m -> Forall item_ok m.
Proof.
  intros H W. apply add_texts_items in H. destruct H as (m1 & -> & F). cbn [matchCreate app] in *.
  induction F as [|i m (s & E) F IH]; auto. apply Forall_cons_iff in W. destruct W as (W1 & W2).
  constructor; auto. eapply parsed_ok; eauto.
Qed.

Lemma stored_eval ss m eth l4 data : add_texts matchCreate ss = Ok (inr m) -> Forall no_wrap m ->
  Forall (fun b => 0 <= b < 256) data -> exists b, matchMatches (Some m) eth l4 data = Ok b.
Proof.
  intros H W B. apply match_total; auto. eapply Forall_impl; [|eapply stored_ok; eauto]. intros i (_ & K & _). auto.
Qed.
Lemma stored_header s i : matchParse s = Ok (inr i) -> no_wrap i ->
  0 <= i_offset i /\ 0 < i_nbytes i /\ i_offset i + i_nbytes i <= header_size (i_proto i).
Proof. intros H W. destruct (parsed_ok _ _ H W) as (_ & (N & O & L) & _). lia. Qed.

Lemma stored_print ss m buf : add_texts matchCreate ss = Ok (inr m) -> Forall no_wrap m -> 0 < zlen buf ->
  exists b rc ts, matchString m buf = Ok (b, rc) /\ zlen b = zlen buf /\
    (rc = 0 <-> zlen (commas ts) < zlen buf) /\ (rc = 0 -> cstring b = commas ts) /\
    Forall (fun t => Forall (fun c => c <> 44) t) ts /\ add_texts matchCreate ts = Ok (inr m).
Proof.
  intros H W L. pose proof (stored_ok _ _ H W) as K. destruct (matchString_ok m buf K L) as (b & rc & E & LB & HH).
  exists b, rc, (map item_text m). split; auto. split; auto.
  split; [destruct HH as [(A & -> & _)|(A & ->)]; lia|].
  split; [intros ->; destruct HH as [(_ & _ & C)|(_ & C)]; [auto|discriminate]|].
  split; [|apply (add_items m K [])].
  apply Forall_map. eapply Forall_impl; [|exact K]. intros i Hi. destruct (item_text_chars i Hi) as (F & _).
  eapply Forall_impl; [|exact F]. intros c Hc. cbv beta in Hc. tauto.
Qed.

(** Packets that end with the header *)
Lemma header_only m eth data proto src dst l4 l4arg : m <> [] -> l4_packet eth data proto src dst l4 ->
  is_l4proto proto -> l4 + header_size proto = zlen data ->
  matchMatches (Some m) eth l4arg data = Ok false.
Proof.
  intros M H P L. assert (X : ext_type proto = false /\ 0 < header_size proto) by (destruct P as [->|[->| ->]]; cbn; lia).
  destruct X as (X & HS). destruct (l4_found _ _ _ _ _ _ H X) as (H20 & F); [lia|].
  unfold matchMatches. destruct m as [|i m]; [congruence|]. rewrite F.
  replace (l4 + header_size proto <? zlen data) with false by lia. auto.
Qed.
(** First fragments over IPv6 *)
Lemma ipv6_first_fragment m data src dst id nxt l4arg : m <> [] -> ipv6_fragment data true src dst id nxt ->
  matchMatches (Some m) ETH_IPV6 l4arg data = Ok false.
Proof.
  intros M (_ & (_ & _ & A6 & _) & AN & AI & _). unfold matchMatches. destruct m as [|i m]; [congruence|].
  change (ETH_IPV6 =? 2048) with false. cbv iota.
  assert (L : 40 < zlen data) by (apply at_len in AN; unfold zlen in *; cbn [length] in AN; lia).
  unfold l4headerIpv6, in_bounds. replace (0 + 40 <? zlen data) with true by lia. cbn [negb].
  apply at_aget in A6. rewrite Z.add_0_l in A6. rewrite A6. cbn [obind].
  destruct (length data); reflexivity.
Qed.
Lemma mask_zero eth data src dst l4 b : l4_packet eth data 6 src dst l4 -> complete_plus data 6 l4 ->
  at_ data l4 [b] -> b <> 0 ->
  exists m e, add_texts matchCreate [str "tcp[0:1]&0x0=0"] = Ok (inr m) /\
    denotes (str "tcp[0:1]&0x0=0") e /\ accepts [e] 6 data l4 /\ matchMatches (Some m) eth 6 data = Ok false.
Proof.
  intros H C A B. exists [mkItem 6 0 1 0 0], (mkExpr 6 0 1 (Some 0) 0).
  assert (D0 : is_dec [48] 0) by (split; [congruence|]; split; [repeat constructor; lia|]; split; [reflexivity|auto]).
  split; [vm_compute; reflexivity|]. split; [|split].
  - exists (str "tcp"), (str "0"), [], [], (str "1"), (str "&0x0"), [], [], (str "0").
    assert (B0 : blanks []) by (exists 0%nat; auto).
    split; [reflexivity|]. split; [right; left; auto|]. split; [exact D0|].
    split; [change (is_dec [49] 1); split; [congruence|]; split; [repeat constructor; lia|]; split; [reflexivity|cbn; discriminate]|].
    split; [|split; [left; exact D0|auto]].
    exists [], [], (str "0"). split; auto. split; auto. split; auto. split; [cbn; congruence|]. split; [|reflexivity].
    constructor; [cbn; lia|constructor].
  - intros e [<-|[]] _. exists [b]. split; auto. cbn [e_off e_mask e_value masked]. rewrite Z.add_0_r. split; auto. apply Z.land_0_r.
  - unfold complete_plus in C. change (header_size 6) with 20 in C.
    pose proof (l4_found _ _ _ _ _ _ H eq_refl) as F. destruct F as (H20 & F); [lia|].
    rewrite (match_found _ _ _ _ 6 l4); [|split; auto|congruence|lia|auto].
    cbn [items_match i_proto Z.eqb Pos.eqb]. unfold matchesItem. cbn [i_offset i_nbytes i_mask i_value Z.eqb]. rewrite Z.add_0_r.
    rewrite (rdn_at_n _ _ _ _ A) by reflexivity. cbn [obind be fold_left].
    replace (0 * 256 + b =? 0) with false by lia. auto.
Qed.

Lemma ipv6_short_option m data src dst h n l4arg : m <> [] -> ipv6_header data 0 h src dst ->
  h = 0 \/ h = 43 \/ h = 60 -> at_ data 40 [n; 0] ->
  matchMatches (Some m) ETH_IPV6 l4arg data = Ok false.
Proof.
  intros M (_ & _ & A6 & _) HH AN. unfold matchMatches. destruct m as [|i m]; [congruence|].
  change (ETH_IPV6 =? 2048) with false. cbv iota.
  assert (L : 42 <= zlen data) by (apply at_len in AN; unfold zlen in *; cbn [length] in AN; lia).
  unfold l4headerIpv6, in_bounds. replace (0 + 40 <? zlen data) with true by lia. cbn [negb].
  apply at_aget in A6. rewrite Z.add_0_l in A6. rewrite A6. cbn [obind].
  assert (N : exists k, length data = S k) by (destruct data; [unfold zlen in L; cbn in L; lia|cbn; eauto]). destruct N as (k & ->).
  assert (AL : aget data 41 = Ok 0).
  { apply at_aget. destruct AN as (A & B & C). unfold at_, zlen in *. cbn [length] in *. split; [lia|]. split; [lia|].
    change (Z.to_nat 41) with (Z.to_nat 40 + 1)%nat. rewrite <- skipn_skipn. destruct (skipn (Z.to_nat 40) data) as [|x [|y w]]; cbn in *; congruence. }
  assert (AN0 : aget data 40 = Ok n).
  { apply at_aget. destruct AN as (A & B & C). unfold at_, zlen in *. cbn [length] in *. split; [lia|]. split; [lia|].
    destruct (skipn (Z.to_nat 40) data) as [|x [|y w]]; cbn in *; congruence. }
  cbn [l4_loop]. unfold in_bounds.
  assert (E : is_ext h = true /\ (h =? 44) = false) by (destruct HH as [->|[->| ->]]; auto). destruct E as (-> & ->). cbn [negb].
  destruct (40 + 2 <? zlen data); cbn [negb]; [|reflexivity].
  change (40 + 1) with 41. rewrite AN0, AL. reflexivity.
Qed.
