(** Proofs about the options. *)
From Coq Require Import String.
From Verif Require Import Base Lists Cstr_Model Util_Proofs Opt_Model Opt_Spec.

Lemma prefix_begins a : forall n, isPrefix a n = true <-> begins a n.
Proof.
  unfold begins. induction a as [|x a IH]; intros n; cbn [isPrefix].
  - split; [exists n; reflexivity|auto].
  - destruct n as [|y n]; [split; [discriminate|intros [b B]; discriminate]|].
    rewrite andb_true_iff, IH, Z.eqb_eq. split.
    + intros [-> [b ->]]. exists b. reflexivity.
    + intros [b B]. inversion B; subst. eauto.
Qed.

Lemma znth_cons0 A (x : A) l : znth (x :: l) 0 = Some x. Proof. reflexivity. Qed.
Lemma znth_consS A (x : A) l j : 0 <= j -> znth (x :: l) (j + 1) = znth l j.
Proof.
  intros J. unfold znth. destruct (j + 1 <? 0) eqn:E; [lia|]. destruct (j <? 0) eqn:E2; [lia|].
  replace (Z.to_nat (j + 1)) with (S (Z.to_nat j)) by lia. reflexivity.
Qed.
Lemma znth_cons_inv A (x : A) l j y : znth (x :: l) j = Some y -> (j = 0 /\ y = x) \/ (exists k, j = k + 1 /\ 0 <= k /\ znth l k = Some y).
Proof.
  intros Z. assert (R := znth_some_range _ _ _ _ Z). destruct (Z.eq_dec j 0) as [->|NE].
  - rewrite znth_cons0 in Z. inversion Z. auto.
  - right. exists (j - 1). split; [lia|]. split; [lia|]. rewrite <- (znth_consS _ x) by lia. replace (j - 1 + 1) with j by lia. auto.
Qed.

Lemma indices_In p opts : forall i k, In k (indices p i opts) <-> exists j o, znth opts j = Some o /\ p (p_name o) = true /\ k = i + j.
Proof.
  induction opts as [|o opts IH]; intros i k; cbn [indices].
  - split; [contradiction|]. intros (j & o & Z & _). apply znth_some_range in Z. unfold zlen in Z. cbn in Z. lia.
  - assert (T : In k (indices p (i + 1) opts) <-> exists j o', 0 <= j /\ znth (o :: opts) (j + 1) = Some o' /\ p (p_name o') = true /\ k = i + (j + 1)).
    { rewrite IH. split.
      - intros (j & o' & Z & P & K). assert (R := znth_some_range _ _ _ _ Z). exists j, o'. rewrite znth_consS by lia. repeat split; auto; lia.
      - intros (j & o' & J & Z & P & K). rewrite znth_consS in Z by lia. exists j, o'. repeat split; auto; lia. }
    destruct (p (p_name o)) eqn:P.
    + cbn [In]. rewrite T. split.
      * intros [<-|(j & o' & J & Z & P' & K)]; [exists 0, o; repeat split; auto; lia|exists (j + 1), o'; auto].
      * intros (j & o' & Z & P' & K). destruct (znth_cons_inv _ _ _ _ _ Z) as [[-> ->]|(j' & -> & J & Z')]; [left; lia|].
        right. exists j', o'. auto.
    + rewrite T. split.
      * intros (j & o' & J & Z & P' & K). exists (j + 1), o'. auto.
      * intros (j & o' & Z & P' & K). destruct (znth_cons_inv _ _ _ _ _ Z) as [[-> ->]|(j' & -> & J & Z')]; [congruence|].
        exists j', o'. auto.
Qed.
Lemma indices_ge p opts i k : In k (indices p i opts) -> i <= k.
Proof. rewrite indices_In. intros (j & o & Z & _ & ->). apply znth_some_range in Z. lia. Qed.
Lemma indices_NoDup p opts : forall i, NoDup (indices p i opts).
Proof.
  induction opts as [|o opts IH]; intros i; cbn [indices]; [constructor|].
  destruct (p (p_name o)); [|apply IH]. constructor; [|apply IH]. intros C. apply indices_ge in C. lia.
Qed.

Lemma names_unique opts i j o o' : NoDup (map p_name opts) -> znth opts i = Some o -> znth opts j = Some o' -> p_name o = p_name o' -> i = j.
Proof.
  intros ND Zi Zj N. assert (Ri := znth_some_range _ _ _ _ Zi). assert (Rj := znth_some_range _ _ _ _ Zj).
  unfold znth in Zi, Zj. destruct (i <? 0) eqn:E; [lia|]. destruct (j <? 0) eqn:E2; [lia|].
  assert (Z.to_nat i = Z.to_nat j); [|lia].
  rewrite NoDup_nth_error in ND. apply ND.
  - rewrite map_length. unfold zlen in Ri. lia.
  - rewrite !nth_error_map, Zi, Zj. cbn. congruence.
Qed.
Lemma name_at opts a : In a (map p_name opts) -> exists i o, znth opts i = Some o /\ p_name o = a.
Proof. rewrite in_map_iff. intros (o & <- & I). apply In_znth in I. destruct I as [i I]. eauto. Qed.

Lemma findOpt_denotes opts a i : table_ok opts -> (findOpt opts a = Some i <-> denotes opts a i).
Proof.
  intros (_ & ND & _). unfold findOpt, denotes.
  destruct (indices (streq a) 0 opts) as [|k r] eqn:E.
  - assert (No : ~ In a (map p_name opts)).
    { intros C. apply name_at in C. destruct C as (j & o & Z & N).
      assert (In (0 + j) (indices (streq a) 0 opts)) by (apply indices_In; exists j, o; rewrite N, streq_refl; auto).
      rewrite E in H. contradiction. }
    assert (P : forall j, In j (indices (isPrefix a) 0 opts) <-> exists o, znth opts j = Some o /\ begins a (p_name o)).
    { intros j. rewrite indices_In. split.
      - intros (j' & o & Z & B & ->). exists o. rewrite <- prefix_begins. auto.
      - intros (o & Z & B). exists j, o. rewrite prefix_begins. auto. }
    assert (D := indices_NoDup (isPrefix a) opts 0).
    split.
    + intros F. destruct (indices (isPrefix a) 0 opts) as [|k [|]]; try discriminate. inversion F; subst k.
      destruct (proj1 (P i)) as (o & Z & B); [left; reflexivity|]. exists o. split; [exact Z|]. right. split; [exact No|]. split; [exact B|].
      intros j o' Z' B'. destruct (proj2 (P j)) as [C|[]]; eauto.
    + intros (o & Z & [N|(_ & B & U)]).
      * destruct No. rewrite in_map_iff. exists o. split; auto. eapply znth_In; eauto.
      * destruct (indices (isPrefix a) 0 opts) as [|k [|k' r]].
        -- destruct (proj2 (P i)); eauto.
        -- destruct (proj1 (P k)) as (o' & Z' & B'); [left; reflexivity|]. f_equal. eauto.
        -- exfalso. destruct (proj1 (P k)) as (o' & Z' & B'); [left; reflexivity|].
           destruct (proj1 (P k')) as (o2 & Z2 & B2); [right; left; reflexivity|].
           assert (k = i) by eauto. assert (k' = i) by eauto. subst. inversion D. apply H1. left. reflexivity.
  - destruct (proj1 (indices_In (streq a) opts 0 k)) as (j & o & Z & S & K); [rewrite E; left; reflexivity|].
    replace (0 + j) with j in K by lia. subst j. apply streq_eq in S. subst a.
    split.
    + intros F. inversion F; subst. exists o. auto.
    + intros (o' & Z' & [N|(No & _)]).
      * f_equal. eapply names_unique; eauto.
      * destruct No. apply in_map. eapply znth_In; eauto.
Qed.
Lemma denotes_fun opts a i j : table_ok opts -> denotes opts a i -> denotes opts a j -> i = j.
Proof. intros T Di Dj. rewrite <- findOpt_denotes in Di, Dj by auto. congruence. Qed.
Lemma denotes_begins opts a i : denotes opts a i -> exists o, znth opts i = Some o /\ begins a (p_name o).
Proof. intros (o & Z & [N|(_ & B & _)]); exists o; split; auto. exists []. rewrite app_nil_r. auto. Qed.
Lemma findOpt_none opts a : table_ok opts -> (forall i, ~ denotes opts a i) -> findOpt opts a = None.
Proof. intros T N. destruct (findOpt opts a) eqn:E; auto. apply findOpt_denotes in E; auto. destruct (N z E). Qed.

(** ** Words *)
Lemma flag_takes o : is_flag o <-> takesArg o = false.
Proof.
  unfold is_flag, takesArg. destruct (p_var o); cbn [andb]; [|tauto].
  destruct (p_default o) as [d|].
  - destruct (streq d (str "no")) eqn:E.
    + apply streq_eq in E. subst. cbn. tauto.
    + cbn. split; [|discriminate]. intros [C|C]; [discriminate|]. inversion C; subst. vm_compute in E. discriminate.
  - split; [intros [C|C]; discriminate|discriminate].
Qed.

Lemma denotes_text opts a i : table_ok opts -> denotes opts a i -> ~ In 61 a /\ (hd 0 a <> 45).
Proof.
  intros (_ & _ & F) D. apply denotes_begins in D. destruct D as (o & Z & b & B).
  rewrite Forall_forall in F. destruct (F o) as (NE & E & H & _); [eapply znth_In; eauto|]. rewrite B in *. split.
  - intros C. apply E. rewrite in_app_iff. auto.
  - destruct a; cbn in *; [lia|exact H].
Qed.

Lemma split_none c a : ~ In c a -> split_at c a = None.
Proof. induction a as [|x a IH]; cbn; intros N; [reflexivity|]. destruct (x =? c) eqn:E; [exfalso; apply N; left; lia|]. rewrite IH; auto. Qed.
Lemma split_some c a b : ~ In c a -> split_at c (a ++ c :: b) = Some (a, b).
Proof.
  induction a as [|x a IH]; cbn; intros N; [rewrite Z.eqb_refl; reflexivity|].
  destruct (x =? c) eqn:E; [exfalso; apply N; left; lia|]. rewrite IH; auto.
Qed.

(** The words of options as the reader sees them *)
Lemma text_dashes two t : t <> [] -> (two = false -> hd 0 t <> 45) -> isOption (dashes two ++ t) = true /\ streq (dashes two ++ t) (str "--") = false /\ optText (dashes two ++ t) = t.
Proof.
  intros NE H. destruct t as [|c t]; [congruence|]. destruct two; cbn [dashes app].
  - split; [reflexivity|]. split; reflexivity.
  - specialize (H eq_refl). cbn in H. split; [reflexivity|]. split.
    + destruct (streq _ _) eqn:E; auto. apply streq_eq in E. inversion E. congruence.
    + cbn [optText]. destruct (c =? 45) eqn:E; [lia|reflexivity].
Qed.
Lemma word_eq two a v : ~ In 61 a -> hd 0 a <> 45 -> let w := dashes two ++ a ++ 61 :: v in
  isOption w = true /\ streq w (str "--") = false /\ optName w = a /\ optValue w = Some v.
Proof.
  intros N H w. destruct (text_dashes two (a ++ 61 :: v)) as (A & B & C).
  - destruct a; discriminate.
  - intros _. destruct a; [cbn; lia|exact H].
  - unfold optName, optValue. subst w. rewrite C, split_some by auto. auto.
Qed.
Lemma word_alone two a : a <> [] -> ~ In 61 a -> hd 0 a <> 45 -> let w := dashes two ++ a in
  isOption w = true /\ streq w (str "--") = false /\ optName w = a /\ optValue w = None.
Proof.
  intros NE N H w. destruct (text_dashes two a) as (A & B & C); auto.
  unfold optName, optValue. subst w. rewrite C, split_none by auto. auto.
Qed.
Lemma plain_not w : plain_word w <-> isOption w = false.
Proof.
  unfold plain_word, isOption. destruct w as [|c [|d r]]; [tauto| |].
  - split; auto. intros _. destruct c as [|p|p]; auto. do 6 (destruct p; auto).
  - destruct (c =? 45) eqn:E.
    + apply Z.eqb_eq in E. subst. split; [contradiction|discriminate].
    + split; auto. intros _. destruct c as [|p|p]; auto. do 6 (try destruct p; auto). discriminate.
Qed.

(** ** The loop *)
Definition setVal (o : opt) (i : Z) (v : option chars) (vals : list (option chars)) := if p_var o then zupd vals i v else vals.
Lemma step_option opts w ws vals got skipped i o : isOption w = true -> streq w (str "--") = false -> findOpt opts (optName w) = Some i ->
  znth opts i = Some o -> p_name o <> str "help" ->
  (forall v, takesArg o = true -> optValue w = Some v ->
     parseLoop opts (w :: ws) vals got skipped = parseLoop opts ws (setVal o i (Some v) vals) (Z.lor got (Z.shiftl 1 i)) skipped) /\
  (forall v ws', takesArg o = true -> optValue w = None -> ws = v :: ws' ->
     parseLoop opts (w :: ws) vals got skipped = parseLoop opts ws' (setVal o i (Some v) vals) (Z.lor got (Z.shiftl 1 i)) skipped) /\
  (takesArg o = false -> optValue w = None ->
     parseLoop opts (w :: ws) vals got skipped = parseLoop opts ws (setVal o i None vals) (Z.lor got (Z.shiftl 1 i)) skipped).
Proof.
  intros A B F Z N. assert (H : streq (p_name o) (str "help") = false).
  { destruct (streq (p_name o) (str "help")) eqn:E; auto. apply streq_eq in E. congruence. }
  split; [|split].
  - intros v T V. cbn [parseLoop]. rewrite A, B, F, Z, T, V, H. reflexivity.
  - intros v ws' T V ->. cbn [parseLoop]. rewrite A, B, F, Z, T, V, H. reflexivity.
  - intros T V. cbn [parseLoop]. rewrite A, B, F, Z, T, V, H. reflexivity.
Qed.

(** What an item does to the state of the loop *)
Lemma step_item opts it W vals got skipped : table_ok opts -> item_ok opts it ->
  (exists w, it = Plain w /\ parseLoop opts (words_of it ++ W) vals got skipped = parseLoop opts W vals got (skipped ++ [w])) \/
  (exists i o v, (forall x, it <> Plain x) /\ (forall j u, gives opts it j u <-> j = i /\ u = v) /\ znth opts i = Some o /\ (is_flag o -> v = None) /\
     parseLoop opts (words_of it ++ W) vals got skipped = parseLoop opts W (setVal o i v vals) (Z.lor got (Z.shiftl 1 i)) skipped).
Proof.
  intros T K. destruct it as [two a v|two a v|two a|w]; cbn [item_ok words_of] in *.
  - right. destruct K as (i & o & D & Z & NF & H). destruct (denotes_text _ _ _ T D) as (N1 & N2).
    destruct (word_eq two a v N1 N2) as (A & B & C & V). exists i, o, (Some v). split; [congruence|]. split; [|split; [exact Z|split; [tauto|]]].
    + intros j u. cbn [gives]. split; [intros (D' & ->); split; auto; eapply denotes_fun; eauto|intros (-> & ->); auto].
    + cbn [app]. apply findOpt_denotes in D; auto. rewrite <- C in D.
      assert (TA : takesArg o = true) by (destruct (takesArg o) eqn:E; auto; destruct NF; apply flag_takes; exact E).
      apply (proj1 (step_option opts _ W vals got skipped i o A B D Z H) v TA V).
  - right. destruct K as (NE & i & o & D & Z & NF & H). destruct (denotes_text _ _ _ T D) as (N1 & N2).
    destruct (word_alone two a NE N1 N2) as (A & B & C & V). exists i, o, (Some v). split; [congruence|]. split; [|split; [exact Z|split; [tauto|]]].
    + intros j u. cbn [gives]. split; [intros (D' & ->); split; auto; eapply denotes_fun; eauto|intros (-> & ->); auto].
    + cbn [app]. apply findOpt_denotes in D; auto. rewrite <- C in D.
      assert (TA : takesArg o = true) by (destruct (takesArg o) eqn:E; auto; destruct NF; apply flag_takes; exact E).
      apply (proj1 (proj2 (step_option opts _ (v :: W) vals got skipped i o A B D Z H)) v W TA V eq_refl).
  - right. destruct K as (NE & i & o & D & Z & NF & H). destruct (denotes_text _ _ _ T D) as (N1 & N2).
    destruct (word_alone two a NE N1 N2) as (A & B & C & V). exists i, o, None. split; [congruence|]. split; [|split; [exact Z|split; [tauto|]]].
    + intros j u. cbn [gives]. split; [intros (D' & ->); split; auto; eapply denotes_fun; eauto|intros (-> & ->); auto].
    + cbn [app]. apply findOpt_denotes in D; auto. rewrite <- C in D. apply flag_takes in NF.
      apply (proj2 (proj2 (step_option opts _ W vals got skipped i o A B D Z H)) NF V).
  - left. exists w. split; [reflexivity|]. cbn [app parseLoop]. apply plain_not in K. rewrite K. reflexivity.
Qed.

(** The state after some items *)
Definition novar (opts : list opt) (vals : list (option chars)) : Prop :=
  zlen vals = zlen opts /\ forall i o, znth opts i = Some o -> p_var o = false -> znth vals i = Some None.
Definition state_after (opts : list opt) (items : list item) (vals : list (option chars)) (got : Z) (vals' : list (option chars)) (got' : Z) : Prop :=
  novar opts vals' /\
  (forall i, 0 <= i < zlen opts ->
     (exists pre it post v, items = pre ++ it :: post /\ gives opts it i v /\ (forall it', In it' post -> ~ mentions opts it' i) /\ znth vals' i = Some v) \/
     ((forall it, In it items -> ~ mentions opts it i) /\ znth vals' i = znth vals i)) /\
  (forall i, 0 <= i -> (Z.testbit got' i = true <-> Z.testbit got i = true \/ exists it, In it items /\ mentions opts it i)).

Lemma bit_set got i k : 0 <= i -> 0 <= k -> Z.testbit (Z.lor got (Z.shiftl 1 i)) k = Z.testbit got k || (i =? k).
Proof.
  intros I K. rewrite Z.lor_spec, Z.shiftl_1_l, Z.pow2_bits_eqb by lia. reflexivity.
Qed.

Lemma parse_items opts items : table_ok opts -> Forall (item_ok opts) items -> forall W vals got skipped, novar opts vals ->
  exists vals' got', parseLoop opts (concat (map words_of items) ++ W) vals got skipped = parseLoop opts W vals' got' (skipped ++ plains items) /\
    state_after opts items vals got vals' got'.
Proof.
  intros T F. induction F as [|it items K F IH]; intros W vals got skipped NV.
  - exists vals, got. cbn. rewrite app_nil_r. split; [reflexivity|]. split; [exact NV|]. split.
    + intros i R. right. split; [intros it []|reflexivity].
    + intros i R. split; [auto|intros [B|(it & [] & _)]; exact B].
  - cbn [map concat]. rewrite <- app_assoc.
    destruct (step_item opts it (concat (map words_of items) ++ W) vals got skipped T K) as [(w & -> & S)|(i & o & v & NP & G & Zi & FL & S)].
    + rewrite S. destruct (IH W vals got (skipped ++ [w]) NV) as (vals' & got' & L & NV' & V & B). exists vals', got'. split.
      * cbn [plains]. rewrite L, <- app_assoc. reflexivity.
      * split; [exact NV'|]. split.
        -- intros i R. destruct (V i R) as [(pre & x & post & u & -> & V')|(V1 & V2)].
           ++ left. exists (Plain w :: pre), x, post, u. auto.
           ++ right. split; [|exact V2]. intros it' [<-|I]; [intros (u & []) | auto].
        -- intros i R. rewrite (B i R). split.
           ++ intros [H|(x & I & M)]; [auto|right; exists x; split; [right; exact I|exact M]].
           ++ intros [H|(x & [<-|I] & M)]; [auto|destruct M as (u & [])|right; exists x; auto].
    + assert (Ri := znth_some_range _ _ _ _ Zi). destruct NV as (NV1 & NV2).
      assert (NV' : novar opts (setVal o i v vals)).
      { unfold setVal, novar. destruct (p_var o) eqn:E; [|split; auto]. rewrite zlen_zupd. split; [exact NV1|].
        intros j o' Zj Vj. destruct (Z.eq_dec i j) as [->|NE]; [congruence|]. rewrite znth_zupd_neq by auto. eauto. }
      assert (Vi : znth (setVal o i v vals) i = Some v).
      { unfold setVal. destruct (p_var o) eqn:E; [apply znth_zupd_eq; lia|]. rewrite FL by (left; exact E). eauto. }
      assert (Vj : forall j, j <> i -> znth (setVal o i v vals) j = znth vals j).
      { intros j NE. unfold setVal. destruct (p_var o); auto. apply znth_zupd_neq. auto. }
      rewrite S. destruct (IH W (setVal o i v vals) (Z.lor got (Z.shiftl 1 i)) skipped NV') as (vals' & got' & L & NV2' & V & B).
      exists vals', got'. split.
      * rewrite L. destruct it; try reflexivity. destruct (NP w eq_refl).
      * split; [exact NV2'|]. split.
        -- intros j R. destruct (V j R) as [(pre & x & post & u & -> & V')|(V1 & V2)].
           ++ left. exists (it :: pre), x, post, u. auto.
           ++ destruct (Z.eq_dec j i) as [->|NE].
              ** left. exists [], it, items, v. split; [reflexivity|]. split; [apply G; auto|]. split; [exact V1|]. congruence.
              ** right. rewrite V2, Vj by auto. split; [|reflexivity]. intros it' [<-|I]; [|auto]. intros (u & M). apply G in M. tauto.
        -- intros j R. rewrite (B j R), bit_set by lia. rewrite orb_true_iff, Z.eqb_eq. split.
           ++ intros [[H|<-]|(x & I & M)]; [auto| |].
              ** right. exists it. split; [left; reflexivity|]. exists v. apply G. auto.
              ** right. exists x. split; [right; exact I|exact M].
           ++ intros [H|(x & [<-|I] & M)]; [auto| |].
              ** left. right. destruct M as (u & M). apply G in M. destruct M. auto.
              ** right. exists x. auto.
Qed.

(** ** Required options *)
Lemma reqMask_bit opts : forall i k, 0 <= i -> 0 <= k ->
  (Z.testbit (reqMask i opts) k = true <-> exists o, i <= k /\ znth opts (k - i) = Some o /\ p_req o = true).
Proof.
  induction opts as [|o opts IH]; intros i k I K; cbn [reqMask].
  - rewrite Z.bits_0. split; [discriminate|]. intros (o & _ & Z & _). apply znth_some_range in Z. unfold zlen in Z. cbn in Z. lia.
  - assert (H0 : Z.testbit (if p_req o then Z.shiftl 1 i else 0) k = true <-> p_req o = true /\ i = k).
    { destruct (p_req o); [rewrite Z.shiftl_1_l, Z.pow2_bits_eqb, Z.eqb_eq by lia; tauto|].
      rewrite Z.bits_0. split; [discriminate|intros [C _]; discriminate]. }
    rewrite Z.lor_spec, orb_true_iff, H0, IH by lia. split.
    + intros [(R & ->)|(o' & L & Z & R)].
      * exists o. replace (k - k) with 0 by lia. split; [lia|]. split; [reflexivity|exact R].
      * exists o'. split; [lia|]. split; [|exact R]. replace (k - i) with (k - (i + 1) + 1) by lia. rewrite znth_consS by lia. exact Z.
    + intros (o' & L & Z & R). destruct (znth_cons_inv _ _ _ _ _ Z) as [(E & ->)|(j & E & J & Z')].
      * left. split; [exact R|lia].
      * right. exists o'. split; [lia|]. split; [|exact R]. replace (k - (i + 1)) with j by lia. exact Z'.
Qed.
Lemma verify_spec opts got : verify opts got = true <-> (forall i o, znth opts i = Some o -> p_req o = true -> Z.testbit got i = true).
Proof.
  unfold verify. rewrite Z.eqb_eq. split.
  - intros E i o Z R. assert (Ri := znth_some_range _ _ _ _ Z).
    assert (B : Z.testbit (reqMask 0 opts) i = true).
    { apply reqMask_bit; try lia. exists o. replace (i - 0) with i by lia. split; [lia|]. auto. }
    rewrite E, Z.land_spec, andb_true_iff in B. tauto.
  - intros H. apply Z.bits_inj'. intros k K. rewrite Z.land_spec. destruct (Z.testbit (reqMask 0 opts) k) eqn:B.
    + apply reqMask_bit in B; try lia. destruct B as (o & _ & Z & R). replace (k - 0) with k in Z by lia. rewrite (H k o Z R). reflexivity.
    + rewrite andb_false_r. reflexivity.
Qed.

Lemma defaults_ok opts : table_ok opts -> novar opts (map p_default opts).
Proof.
  intros (_ & _ & F). split; [unfold zlen; rewrite map_length; reflexivity|]. intros i o Z V.
  rewrite Forall_forall in F. destruct (F o) as (_ & _ & _ & D); [eapply znth_In; eauto|].
  unfold znth in *. destruct (i <? 0); [discriminate|]. rewrite nth_error_map, Z. cbn. rewrite D by auto. reflexivity.
Qed.
Lemma default_at opts i o : znth opts i = Some o -> znth (map p_default opts) i = Some (p_default o).
Proof. unfold znth. destruct (i <? 0); [discriminate|]. rewrite nth_error_map. intros ->. reflexivity. Qed.

(** ** The theorems *)
Lemma mentions_dec opts it i : table_ok opts -> {mentions opts it i} + {~ mentions opts it i}.
Proof.
  intros T. assert (D : forall a, {denotes opts a i} + {~ denotes opts a i}).
  { intros a. destruct (findOpt opts a) as [k|] eqn:E.
    - destruct (Z.eq_dec k i) as [->|NE]; [left; apply findOpt_denotes; auto|right; intros C; apply findOpt_denotes in C; auto; congruence].
    - right. intros C. apply findOpt_denotes in C; auto. congruence. }
  destruct it as [two a v|two a v|two a|w].
  - destruct (D a) as [A|N]; [left; exists (Some v); cbn; auto|right; intros (u & C & _); auto].
  - destruct (D a) as [A|N]; [left; exists (Some v); cbn; auto|right; intros (u & C & _); auto].
  - destruct (D a) as [A|N]; [left; exists None; cbn; auto|right; intros (u & C & _); auto].
  - right. intros (u & []).
Qed.

Lemma parse_start opts items W : table_ok opts -> Forall (item_ok opts) items ->
  exists vals got, parseOptions opts (concat (map words_of items) ++ W) = Ok (parseLoop opts W vals got (plains items)) /\
    state_after opts items (map p_default opts) 0 vals got.
Proof.
  intros T F. unfold parseOptions. destruct (32 <=? zlen opts) eqn:E; [destruct T; lia|].
  destruct (parse_items opts items T F W (map p_default opts) 0 [] (defaults_ok opts T)) as (vals & got & L & S).
  exists vals, got. rewrite L. auto.
Qed.

Lemma after_values opts items vals got : state_after opts items (map p_default opts) 0 vals got ->
  zlen vals = zlen opts /\ forall i v, znth vals i = Some v -> has_value opts items i v.
Proof.
  intros ((L & _) & V & _). split; [exact L|]. intros i v Z. assert (R := znth_some_range _ _ _ _ Z). rewrite L in R.
  destruct (V i R) as [(pre & it & post & u & E & G & N & Z')|(N & Z')].
  - left. exists pre, it, post. rewrite Z in Z'. inversion Z'; subst u. auto.
  - right. split; [exact N|]. destruct (znth_in_range _ opts i R) as [o O]. exists o. split; [exact O|].
    rewrite Z', (default_at _ _ _ O) in Z. congruence.
Qed.
Lemma after_verify opts items vals got : state_after opts items (map p_default opts) 0 vals got ->
  (verify opts got = true <-> forall i o, znth opts i = Some o -> p_req o = true -> exists it, In it items /\ mentions opts it i).
Proof.
  intros (_ & _ & B). rewrite verify_spec. split; intros H i o Z R; assert (X := H i o Z R); assert (Ri := znth_some_range _ _ _ _ Z).
  - apply B in X; [|lia]. rewrite Z.bits_0 in X. destruct X as [X|X]; [discriminate|exact X].
  - apply B; [lia|]. auto.
Qed.

Lemma tail_loop opts tail vals got skipped :
  parseLoop opts (match tail with None => [] | Some ws => str "--" :: ws end) vals got skipped =
  if verify opts got then Parsed vals (skipped ++ match tail with None => [] | Some ws => ws end) else Refused.
Proof. destruct tail as [ws|]; reflexivity. Qed.

Lemma line_read opts items tail : table_ok opts -> Forall (item_ok opts) items ->
  (forall i, ~ missing opts items i) ->
  exists vals, parseOptions opts (line items tail) = Ok (Parsed vals (rest_words items tail)) /\ zlen vals = zlen opts /\
    forall i v, znth vals i = Some v -> has_value opts items i v.
Proof.
  intros T F M. destruct (parse_start opts items (match tail with None => [] | Some ws => str "--" :: ws end) T F) as (vals & got & P & S).
  exists vals. unfold line. rewrite P, tail_loop. split; [|apply (after_values _ _ _ _ S)].
  assert (V : verify opts got = true); [|rewrite V; reflexivity].
  apply (after_verify _ _ _ _ S). intros i o Z R.
  destruct (Exists_dec (fun it => mentions opts it i) items) as [X|X]; [intros it; apply mentions_dec; auto|apply Exists_exists; exact X|].
  destruct (M i). exists o. split; [exact Z|]. split; [exact R|]. intros it I C. apply X. apply Exists_exists. eauto.
Qed.
Lemma line_missing opts items tail i : table_ok opts -> Forall (item_ok opts) items -> missing opts items i ->
  parseOptions opts (line items tail) = Ok Refused.
Proof.
  intros T F (o & Z & R & N). destruct (parse_start opts items (match tail with None => [] | Some ws => str "--" :: ws end) T F) as (vals & got & P & S).
  unfold line. rewrite P, tail_loop. destruct (verify opts got) eqn:V; [|reflexivity].
  destruct (proj1 (after_verify _ _ _ _ S) V i o Z R) as (it & I & M). destruct (N it I M).
Qed.

Lemma value_unique opts items i v w : table_ok opts -> has_value opts items i v -> has_value opts items i w -> v = w.
Proof.
  intros T.
  assert (G : forall it j x y, gives opts it j x -> gives opts it j y -> x = y).
  { intros [| | |] j x y; cbn; intuition congruence. }
  assert (L : forall pre it post pre' it' post' (P : item -> Prop), pre ++ it :: post = pre' ++ it' :: post' -> P it -> P it' ->
     (forall z, In z post -> ~ P z) -> (forall z, In z post' -> ~ P z) -> it = it').
  { induction pre as [|p pre IH]; intros it post pre' it' post' P E P1 P2 N1 N2; destruct pre' as [|p' pre']; cbn in E; inversion E; subst; auto.
    - destruct (N1 it'); auto. rewrite in_app_iff. cbn. auto.
    - destruct (N2 it); auto. rewrite in_app_iff. cbn. auto.
    - eapply IH; eauto. }
  intros [(pre & it & post & E & V & N)|(N & o & Z & ->)] [(pre' & it' & post' & E' & V' & N')|(N' & o' & Z' & ->)].
  - assert (it = it').
    { eapply (L pre it post pre' it' post' (fun z => mentions opts z i)); [congruence|exists v; exact V|exists w; exact V'|exact N|exact N']. }
    subst it'. eauto.
  - destruct (N' it); [|exists v; exact V]. rewrite E, in_app_iff. cbn. auto.
  - destruct (N it'); [|exists w; exact V']. rewrite E', in_app_iff. cbn. auto.
  - congruence.
Qed.

Lemma help_read opts items two a i o more : table_ok opts -> Forall (item_ok opts) items -> a <> [] -> denotes opts a i -> znth opts i = Some o ->
  is_flag o -> p_name o = str "help" -> parseOptions opts (concat (map words_of items) ++ (dashes two ++ a) :: more) = Ok Help.
Proof.
  intros T F NE D Z FL H. destruct (parse_start opts items ((dashes two ++ a) :: more) T F) as (vals & got & P & _). rewrite P.
  destruct (denotes_text _ _ _ T D) as (N1 & N2). destruct (word_alone two a NE N1 N2) as (A & B & C & V).
  apply findOpt_denotes in D; auto. apply flag_takes in FL.
  cbn [parseLoop]. rewrite A, B, C, D, Z, FL, V, H. reflexivity.
Qed.

(** Words that end the reading with an error: no option is denoted, a flag
    with a value, a value that is not there *)
Lemma unknown_read opts items w more : table_ok opts -> Forall (item_ok opts) items -> ~ plain_word w -> w <> str "--" ->
  (forall two a v i, w = dashes two ++ a \/ w = dashes two ++ a ++ 61 :: v -> ~ denotes opts a i) ->
  parseOptions opts (concat (map words_of items) ++ w :: more) = Ok Refused.
Proof.
  intros T F NP ND U. destruct (parse_start opts items (w :: more) T F) as (vals & got & P & _). rewrite P.
  cbn [parseLoop]. destruct (isOption w) eqn:E; [|destruct NP; apply plain_not; exact E]. cbn [negb].
  destruct (streq w (str "--")) eqn:E2; [apply streq_eq in E2; congruence|].
  rewrite findOpt_none; auto. intros i D.
  assert (W : exists two, w = dashes two ++ optText w).
  { destruct w as [|c [|d r]]; try discriminate. cbn in E. apply Z.eqb_eq in E. subst c. cbn [optText].
    destruct (d =? 45) eqn:E3; [apply Z.eqb_eq in E3; subst d; exists true; reflexivity|exists false; reflexivity]. }
  destruct W as (two & W). unfold optName in D. destruct (split_at 61 (optText w)) as [[a v]|] eqn:S.
  - apply (U two a v i); [|exact D]. right. rewrite W at 1. f_equal.
    clear -S. revert a v S. induction (optText w) as [|x t IH]; cbn; intros a v S; [discriminate|].
    destruct (x =? 61) eqn:E; [apply Z.eqb_eq in E; inversion S; subst; reflexivity|].
    destruct (split_at 61 t) as [[a' b']|]; [|discriminate]. inversion S; subst. cbn. f_equal. auto.
  - apply (U two (optText w) [] i); auto.
Qed.
Lemma extra_read opts items two a v i o more : table_ok opts -> Forall (item_ok opts) items -> denotes opts a i -> znth opts i = Some o -> is_flag o ->
  parseOptions opts (concat (map words_of items) ++ (dashes two ++ a ++ 61 :: v) :: more) = Ok Refused.
Proof.
  intros T F D Z FL. destruct (parse_start opts items ((dashes two ++ a ++ 61 :: v) :: more) T F) as (vals & got & P & _). rewrite P.
  destruct (denotes_text _ _ _ T D) as (N1 & N2). destruct (word_eq two a v N1 N2) as (A & B & C & V).
  apply findOpt_denotes in D; auto. apply flag_takes in FL.
  cbn [parseLoop]. rewrite A, B, C, D, Z, FL, V. reflexivity.
Qed.
Lemma absent_read opts items two a i o : table_ok opts -> Forall (item_ok opts) items -> a <> [] -> denotes opts a i -> znth opts i = Some o -> ~ is_flag o ->
  parseOptions opts (concat (map words_of items) ++ [dashes two ++ a]) = Ok Refused.
Proof.
  intros T F NE D Z FL. destruct (parse_start opts items [dashes two ++ a] T F) as (vals & got & P & _). rewrite P.
  destruct (denotes_text _ _ _ T D) as (N1 & N2). destruct (word_alone two a NE N1 N2) as (A & B & C & V).
  apply findOpt_denotes in D; auto. rewrite flag_takes in FL. destruct (takesArg o) eqn:TA; [|congruence].
  cbn [parseLoop]. rewrite A, B, C, D, Z, TA, V. reflexivity.
Qed.

(** Whatever is accepted is such a line *)
Lemma opt_word w : isOption w = true -> exists two, w = dashes two ++ optText w /\ (two = true \/ hd 0 (optText w) <> 45 /\ optText w <> []).
Proof.
  destruct w as [|c [|d r]]; cbn; try discriminate. intros E. apply Z.eqb_eq in E. subst c.
  destruct (d =? 45) eqn:E3; [apply Z.eqb_eq in E3; subst d; exists true; auto|exists false]. split; [reflexivity|]. right. cbn. split; [lia|discriminate].
Qed.
Lemma split_inv c s : forall a b, split_at c s = Some (a, b) -> s = a ++ c :: b.
Proof.
  induction s as [|x t IH]; cbn; intros a v S; [discriminate|].
  destruct (x =? c) eqn:E; [apply Z.eqb_eq in E; inversion S; subst; reflexivity|].
  destruct (split_at c t) as [[a' b']|]; [|discriminate]. inversion S; subst. cbn. f_equal. auto.
Qed.

Lemma accepted_loop opts : table_ok opts -> forall n words vals got skipped vals' rest, (length words <= n)%nat ->
  parseLoop opts words vals got skipped = Parsed vals' rest ->
  exists items tail, words = line items tail /\ Forall (item_ok opts) items.
Proof.
  intros T. induction n as [|n IH]; intros words vals got skipped vals' rest LN P.
  - destruct words; [|cbn in LN; lia]. exists [], None. auto.
  - destruct words as [|w ws]; [exists [], None; auto|]. cbn [length] in LN. cbn [parseLoop] in P.
    destruct (isOption w) eqn:E; cbn [negb] in P.
    2:{ destruct (IH ws vals got (skipped ++ [w]) vals' rest ltac:(lia) P) as (items & tail & -> & F).
        exists (Plain w :: items), tail. split; [reflexivity|]. constructor; [apply plain_not; exact E|exact F]. }
    destruct (streq w (str "--")) eqn:E2.
    { apply streq_eq in E2. subst w. exists [], (Some ws). auto. }
    destruct (opt_word w E) as (two & W & NE).
    destruct (findOpt opts (optName w)) as [i|] eqn:FO; [|discriminate]. apply findOpt_denotes in FO; auto.
    destruct (znth opts i) as [o|] eqn:Z; [|discriminate].
    assert (NE2 : optText w <> []).
    { intros C. rewrite C in *. destruct NE as [->|[_ NE]]; [|congruence]. subst w. vm_compute in E2. discriminate. }
    destruct (takesArg o) eqn:TA.
    + assert (NF : ~ is_flag o) by (rewrite flag_takes; congruence).
      unfold optName in FO. unfold optValue in P. destruct (split_at 61 (optText w)) as [[a v]|] eqn:S.
      * destruct (streq (p_name o) (str "help")) eqn:H; [discriminate|].
        destruct (IH ws _ _ _ vals' rest ltac:(lia) P) as (items & tail & -> & F).
        exists (GivenEq two a v :: items), tail. split.
        -- apply split_inv in S. rewrite S in W. rewrite W. reflexivity.
        -- constructor; auto. cbn [item_ok]. exists i, o. split; [exact FO|]. split; [exact Z|]. split; [exact NF|].
           intros C. apply streq_eq in C. congruence.
      * destruct ws as [|v ws]; [discriminate|].
        destruct (streq (p_name o) (str "help")) eqn:H; [discriminate|].
        cbn [length] in LN. destruct (IH ws _ _ _ vals' rest ltac:(lia) P) as (items & tail & -> & F).
        exists (GivenNext two (optText w) v :: items), tail. split.
        -- unfold line. cbn [map concat words_of app]. rewrite <- W. reflexivity.
        -- constructor; auto. cbn [item_ok]. split; [exact NE2|]. exists i, o. split; [exact FO|]. split; [exact Z|]. split; [exact NF|].
           intros C. apply streq_eq in C. congruence.
    + assert (FL : is_flag o) by (apply flag_takes; exact TA).
      unfold optName in FO. unfold optValue in P. destruct (split_at 61 (optText w)) as [[a v]|] eqn:S; [discriminate|].
      destruct (streq (p_name o) (str "help")) eqn:H; [discriminate|].
      destruct (IH ws _ _ _ vals' rest ltac:(lia) P) as (items & tail & -> & F).
      exists (Flagged two (optText w) :: items), tail. split.
      * unfold line. cbn [map concat words_of app]. rewrite <- W. reflexivity.
      * constructor; auto. cbn [item_ok]. split; [exact NE2|]. exists i, o. split; [exact FO|]. split; [exact Z|]. split; [exact FL|].
        intros C. apply streq_eq in C. congruence.
Qed.
Lemma accepted_line opts words vals rest : table_ok opts -> parseOptions opts words = Ok (Parsed vals rest) ->
  exists items tail, words = line items tail /\ Forall (item_ok opts) items /\ (forall i, ~ missing opts items i) /\
    rest = rest_words items tail /\ zlen vals = zlen opts /\ forall i v, znth vals i = Some v -> has_value opts items i v.
Proof.
  intros T P. assert (P' := P). unfold parseOptions in P. destruct (32 <=? zlen opts); [discriminate|]. inversion P as [L].
  destruct (accepted_loop opts T _ _ _ _ _ _ _ (le_n _) L) as (items & tail & -> & F). exists items, tail. split; [reflexivity|]. split; [exact F|].
  assert (M : forall i, ~ missing opts items i). { intros i M. rewrite (line_missing opts items tail i T F M) in P'. discriminate. }
  split; [exact M|]. destruct (line_read opts items tail T F M) as (vals2 & R & L2 & V). rewrite R in P'. inversion P'; subst. auto.
Qed.

Lemma parse_total opts words : zlen opts <= 31 -> exists r, parseOptions opts words = Ok r.
Proof. intros H. unfold parseOptions. destruct (32 <=? zlen opts) eqn:E; [lia|eauto]. Qed.
