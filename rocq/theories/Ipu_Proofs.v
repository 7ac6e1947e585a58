(** Proofs about the commands of ipu (C83). *)
From Coq Require Import String.
From Verif Require Import Base Lists Cstr_Model Util_Model Util_Spec Util_Proofs Rangeset_Model Rangeset_Spec IpKey_Spec Match_Spec
  Match_Proofs Cidr_Proofs Fwmark_Proofs Shm_Model Start_Spec Start_Proofs Lines_Proofs Opt2_Proofs Opt_Proofs Ipu_Model Ipu_Spec Opt_Model Opt_Spec.

Ltac four b := destruct b as [|?p0 [|?p1 [|?p2 [|?p3 [|? ?]]]]]; try discriminate.

Lemma network_four p0 p1 p2 p3 : network [p0; p1; p2; p3] = p0 * 16777216 + p1 * 65536 + p2 * 256 + p3.
Proof. cbn [network]. unfold zlen. cbn [length]. change (256 ^ Z.of_nat 3) with 16777216. change (256 ^ Z.of_nat 2) with 65536.
  change (256 ^ Z.of_nat 1) with 256. change (256 ^ Z.of_nat 0) with 1. lia. Qed.
Lemma fromBytes_network b : bytes 4 b -> fromBytes b = network b.
Proof. intros [N _]. four b. rewrite network_four. reflexivity. Qed.
Lemma toBytes_ok r : 0 <= r < 4294967296 -> bytes 4 (toBytes r) /\ network (toBytes r) = r.
Proof.
  intros R. split.
  - split; [reflexivity|]. unfold toBytes. repeat constructor; try (apply Z.mod_pos_bound; lia); [apply Z.div_pos; lia|apply Z.div_lt_upper_bound; lia].
  - unfold toBytes. rewrite network_four.
    assert (A := Z.div_mod r 256 ltac:(lia)). assert (B := Z.div_mod (r / 256) 256 ltac:(lia)). assert (C := Z.div_mod (r / 65536) 256 ltac:(lia)).
    assert (E : r / 65536 = r / 256 / 256) by (rewrite Z.div_div by lia; reflexivity).
    assert (F : r / 16777216 = r / 65536 / 256) by (rewrite Z.div_div by lia; reflexivity). lia.
Qed.
Lemma network_bounds4 b : bytes 4 b -> 0 <= network b < 4294967296.
Proof. intros [N F]. assert (H := network_bound b F). unfold zlen in H. rewrite N in H. exact H. Qed.
Lemma network_bounds16 b : bytes 16 b -> 0 <= network b < 2 ^ 128.
Proof. intros [N F]. assert (H := network_bound b F). unfold zlen in H. rewrite N in H. exact H. Qed.
Lemma bytes_parts b : bytes 16 b -> bytes 4 (skipn 12 b) /\ bytes 12 (firstn 12 b).
Proof.
  intros [N F]. rewrite <- (firstn_skipn 12 b) in F. apply Forall_app in F. destruct F as [F1 F2].
  split; split; auto; [rewrite skipn_length|rewrite firstn_length]; rewrite N; reflexivity.
Qed.
Lemma network_parts a c : bytes 4 c -> network (a ++ c) = network a * 4294967296 + network c.
Proof. intros [N _]. rewrite network_app. unfold zlen. rewrite N. reflexivity. Qed.
Lemma bytes_join a c : bytes 12 a -> bytes 4 c -> bytes 16 (a ++ c).
Proof. intros [A B] [C D]. split; [rewrite app_length, A, C; reflexivity|apply Forall_app; auto]. Qed.
Lemma network_split b : bytes 16 b -> network b = network (firstn 12 b) * 4294967296 + network (skipn 12 b).
Proof. intros B. destruct (bytes_parts b B) as [C _]. rewrite <- (network_parts _ _ C), firstn_skipn. reflexivity. Qed.

(** The words of an IPv6 address *)
Lemma words16_ok b : bytes 16 b -> words_ok (words16 b) /\ value6 (words16 b) = network b.
Proof.
  intros [N F]. destruct b as [|a0 [|a1 [|a2 [|a3 [|a4 [|a5 [|a6 [|a7 [|a8 [|a9 [|a10 [|a11 [|a12 [|a13 [|a14 [|a15 [|? ?]]]]]]]]]]]]]]]]];
    try discriminate. clear N.
  repeat (apply Forall_cons_iff in F; destruct F as [? F]).
  unfold words16. cbn [firstn skipn fromBytes]. split.
  - split; [reflexivity|]. repeat constructor; lia.
  - unfold value6. cbn [fold_left network]. unfold zlen. cbn [length].
    repeat match goal with |- context [256 ^ Z.of_nat ?k] => let v := eval vm_compute in (256 ^ Z.of_nat k) in change (256 ^ Z.of_nat k) with v end. lia.
Qed.

Lemma colon_in s : hasColon s = true <-> In 58 s.
Proof.
  unfold hasColon. destruct (split_at 58 s) as [[a r]|] eqn:E; split; intros H; auto; try discriminate.
  - clear H. revert a r E. induction s as [|c s IH]; cbn [split_at]; intros a r E; [discriminate|].
    destruct (c =? 58) eqn:C; [left; lia|]. destruct (split_at 58 s) as [[x y]|]; [|discriminate]. right. eapply IH. reflexivity.
  - exfalso. apply in_split in H. destruct H as (l1 & l2 & ->). clear -E. revert E. induction l1 as [|c l IH]; cbn [app split_at].
    + rewrite Z.eqb_refl. discriminate.
    + destruct (c =? 58); [discriminate|]. destruct (split_at 58 (l ++ 58 :: l2)) as [[x y]|]; [discriminate|]. intros _. apply IH. reflexivity.
Qed.
Lemma colon_not s : hasColon s = false <-> ~ In 58 s.
Proof. rewrite <- colon_in. destruct (hasColon s); split; congruence. Qed.
Lemma family_bits t w : family t w -> (if hasColon t then 128 else 32) = w.
Proof. intros [[H ->]|[H ->]]; [rewrite (proj2 (colon_in t) H)|rewrite (proj2 (colon_not t) H)]; reflexivity. Qed.
Lemma family_ex t : exists w, family t w.
Proof. destruct (hasColon t) eqn:E; [exists 128; left; rewrite <- colon_in; auto|exists 32; right; rewrite <- colon_not; auto]. Qed.

(** ** Tables *)
Lemma makeip_table : table_ok makeipOpts.
Proof. apply table_okb. vm_compute. reflexivity. Qed.
Lemma contains_table : table_ok containsOpts.
Proof. apply table_okb. vm_compute. reflexivity. Qed.
Lemma linklocal_table : table_ok linklocalOpts /\ forall o, In o linklocalOpts -> p_req o = false.
Proof. split; [apply table_okb; vm_compute; reflexivity|]. cbn. intros o [<-|[]]. reflexivity. Qed.

(** A required option with a value is on the line. *)
Lemma present opts its n v o : table_ok opts -> In o opts -> p_name o = str n -> p_default o = None ->
  value_of opts its n (Some v) -> forall i, znth opts i = Some o -> ~ (forall it, In it its -> ~ mentions opts it i).
Proof.
  intros T O N D (j & o' & Hj & Nj & H) i Hi M.
  assert (i = j). { destruct T as (_ & ND & _). eapply names_unique; eauto. congruence. } subst j.
  destruct H as [(pre & it & post & -> & G & _)|(_ & o2 & Z2 & E)].
  - apply (M it); [rewrite in_app_iff; cbn; auto|]. eexists. eauto.
  - assert (o2 = o) by congruence. subst. congruence.
Qed.
Lemma makeip_missing its v : value_of makeipOpts its "cidr" (Some v) -> forall i, ~ missing makeipOpts its i.
Proof.
  intros H i (o & Z & R & M). pose proof Z as O; apply znth_In in O. pose proof O as O'. cbn [makeipOpts In] in O.
  destruct O as [<-|[<-|[<-|[<-|[<-|[<-|[]]]]]]]; try discriminate.
  exact (present makeipOpts its "cidr" v (must "cidr") makeip_table O' eq_refl eq_refl H i Z M).
Qed.
Lemma contains_missing its v : value_of containsOpts its "cidr" (Some v) -> forall i, ~ missing containsOpts its i.
Proof.
  intros H i (o & Z & R & M). pose proof Z as O; apply znth_In in O. pose proof O as O'. cbn [containsOpts In] in O.
  destruct O as [<-|[<-|[]]]; try discriminate.
  exact (present containsOpts its "cidr" v (must "cidr") contains_table O' eq_refl eq_refl H i Z M).
Qed.

Lemma makeip_line wrap L its tail s net host sub tpl : makes its s net host sub tpl ->
  exists n h u, is_num n net /\ is_num h host /\
    match sub with None => u = None | Some k => exists t, u = Some t /\ is_num t k end /\
    cmdMakeip wrap L (line its tail) = died (makeipText wrap L s n h u tpl).
Proof.
  intros (F & C & (n & Vn & Nn) & (h & Vh & Nh) & U & T).
  destruct (line_vals2 makeipOpts its tail makeip_table F (makeip_missing its s C)) as (vals & P & Len & V).
  assert (X : exists u, value_of makeipOpts its "subnet" u /\ match sub with None => u = None | Some k => exists t, u = Some t /\ is_num t k end).
  { destruct sub; [destruct U as (t & Vt & Nt); exists (Some t); split; eauto|exists None; auto]. }
  destruct X as (u & Vu & Su). exists n, h, u. split; auto. split; auto. split; auto.
  unfold cmdMakeip, ipuOptions. rewrite P. cbn [obind].
  destruct vals as [|a0 [|a1 [|a2 [|a3 [|a4 [|a5 [|? ?]]]]]]]; try (exfalso; unfold zlen in Len; cbn [length makeipOpts] in Len; lia).
  assert (E1 := V 1 _ "cidr"%string _ eq_refl eq_refl C). assert (E2 := V 2 _ "net"%string _ eq_refl eq_refl Vn).
  assert (E3 := V 3 _ "host"%string _ eq_refl eq_refl Vh). assert (E4 := V 4 _ "subnet"%string _ eq_refl eq_refl Vu).
  assert (E5 := V 5 _ "ipv6template"%string _ eq_refl eq_refl T).
  cbn in E1, E2, E3, E4, E5. inversion E1. inversion E2. inversion E3. inversion E4. inversion E5. subst. reflexivity.
Qed.

Lemma contains_line wrap L its tail s arg more : asks its s -> rest_words its tail = arg :: more ->
  cmdContains wrap L (line its tail) = died (containsText wrap L s arg).
Proof.
  intros (F & C) R.
  destruct (line_vals2 containsOpts its tail contains_table F (contains_missing its s C)) as (vals & P & Len & V).
  unfold cmdContains, ipuOptions. rewrite P. cbn [obind].
  destruct vals as [|a0 [|a1 [|? ?]]]; try (exfalso; unfold zlen in Len; cbn [length containsOpts] in Len; lia).
  assert (E1 := V 1 _ "cidr"%string _ eq_refl eq_refl C). cbn in E1. inversion E1. subst. rewrite R. reflexivity.
Qed.
Lemma contains_no_arg wrap L its tail s : asks its s -> rest_words its tail = [] -> cmdContains wrap L (line its tail) = Ok (1, []).
Proof.
  intros (F & C) R.
  destruct (line_vals2 containsOpts its tail contains_table F (contains_missing its s C)) as (vals & P & Len & V).
  unfold cmdContains, ipuOptions. rewrite P. cbn [obind].
  destruct vals as [|a0 [|a1 [|? ?]]]; try (exfalso; unfold zlen in Len; cbn [length containsOpts] in Len; lia).
  assert (E1 := V 1 _ "cidr"%string _ eq_refl eq_refl C). cbn in E1. inversion E1. subst. rewrite R. reflexivity.
Qed.

(** ** Slots *)
Lemma number_noslash d v : Match_Spec.number d v -> ~ In 47 d.
Proof.
  intros [D|(x & -> & _ & X & _)] I; [eapply dec_no; eauto; lia|]. cbn in I. destruct I as [I|[I|I]]; try discriminate.
  rewrite Forall_forall in X. specialize (X 47 I). lia.
Qed.
Lemma strtol_at d v rest : Match_Spec.number d v -> 0 <= v < 2 ^ 31 -> stop rest -> s32 (fst (strtol 0 (d ++ rest))) = v.
Proof.
  intros N R S. assert (H := strtol_number [] d v rest ltac:(exists 0%nat; reflexivity) N ltac:(unfold LONG_MAX; lia) S).
  cbn [app] in H. rewrite H. cbn [fst]. unfold s32, u32, two32. cbv zeta. rewrite Z.mod_small by lia.
  change (2 ^ 31) with 2147483648 in R. destruct (_ <? _) eqn:E; lia.
Qed.
Lemma slots_read s base s1 s2 : slots s base s1 s2 ->
  52 <? zlen s = false /\ exists r, split_at 47 s = Some (base, r) /\ s32 (fst (strtol 0 r)) = s1 /\
  match split_at 47 r with None => s1 | Some (_, r2) => s32 (fst (strtol 0 r2)) end = s2.
Proof.
  intros (Z & B & R1 & R2 & [(d & -> & N & ->)|(d1 & d2 & -> & N1 & N2)]); (split; [lia|]).
  - exists d. split; [apply split_some; auto|]. assert (H := strtol_at d s1 [] N R1 Logic.I). rewrite app_nil_r in H. split; auto.
    rewrite split_none by (eapply number_noslash; eauto). reflexivity.
  - exists (d1 ++ str "/" ++ d2). split; [apply split_some; auto|]. split; [apply strtol_at; auto; reflexivity|].
    change (str "/" ++ d2) with (47 :: d2). rewrite (split_some 47 d1 d2) by (eapply number_noslash; eauto).
    assert (H := strtol_at d2 s2 [] N2 R2 Logic.I). rewrite app_nil_r in H. auto.
Qed.

Lemma reads_family L t w v : ilib_ok L -> reads L t w v -> family t w /\ 0 <= v < 2 ^ w /\ ~ In 47 t.
Proof.
  intros K [(-> & b & P & ->)|(-> & b & P & ->)].
  - destruct (ok_pton4 L K t b P) as (B & N & S). split; [right; auto|]. split; [exact (network_bounds4 b B)|auto].
  - destruct (ok_pton6 L K t b P) as (B & N & S). split; [left; auto|]. split; [exact (network_bounds16 b B)|auto].
Qed.
