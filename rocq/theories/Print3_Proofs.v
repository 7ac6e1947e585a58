(** Proofs about the listing of flows (C65): what is read back. *)
From Coq Require Import String Permutation Sorted.
From Verif Require Import Base Lists Cstr_Model Util_Spec Util_Proofs Rangeset_Model Rangeset_Spec
  Rangeset_Proofs Rangeset2_Proofs IpKey_Model IpKey_Spec IpKey_Proofs Match_Model Match_Spec Match_Proofs
  Flow_Model Flow_Spec Cidr_Proofs Flow_Proofs Flow2_Proofs Flow3_Proofs Print_Model Print_Spec Print_Proofs Print2_Proofs.

(** ** JSON *)
Lemma ws_app a b : ws a -> ws b -> ws (a ++ b).
Proof. intros A B. apply Forall_app. auto. Qed.
Lemma ws_str l : forallb (fun c => (c =? 32) || (c =? 10)) l = true -> ws l.
Proof. intros H. rewrite forallb_forall in H. apply Forall_forall. intros c Hc. apply H in Hc. lia. Qed.
Ltac blank := repeat apply ws_app; auto; apply ws_str; reflexivity.
Lemma clean_str l : forallb (fun c => (32 <=? c) && (c <? 256) && negb (c =? 34) && negb (c =? 92)) l = true -> clean l.
Proof. intros H. rewrite forallb_forall in H. apply Forall_forall. intros c Hc. apply H in Hc. lia. Qed.

Lemma items_toks l : l <> [] -> Forall clean l -> forall w w', ws w -> ws w' -> items (w ++ printToks l ++ w') (map JStr l).
Proof.
  intros N F. induction F as [|t l C F IH]; [congruence|]. clear N. intros w w' W W'. cbn [printToks map].
  destruct l as [|u l].
  - cbn [printToks map]. rewrite !app_nil_r.
    replace (w ++ (str "    """ ++ t ++ str """") ++ w') with ((w ++ str "    ") ++ (str """" ++ t ++ str """") ++ w')
      by (rewrite <- !app_assoc; reflexivity).
    constructor; [blank| |auto]. constructor. auto.
  - specialize (IH ltac:(congruence) nl w' ltac:(blank) W').
    replace (w ++ (str "    """ ++ t ++ str """" ++ (str "," ++ nl) ++ printToks (u :: l)) ++ w')
      with ((w ++ str "    ") ++ (str """" ++ t ++ str """") ++ [] ++ str "," ++ (nl ++ printToks (u :: l) ++ w'))
      by (rewrite <- !app_assoc; reflexivity).
    constructor; [blank| |constructor|exact IH]. constructor. auto.
Qed.
Lemma reads_toks l : Forall clean l -> reads (str "[" ++ nl ++ printToks l ++ nl ++ str "  ]") (strings l).
Proof.
  intros F. unfold strings. destruct l as [|t l].
  - cbn [printToks map]. apply (reads_arr0 (nl ++ nl ++ str "  ")). blank.
  - replace (str "[" ++ nl ++ printToks (t :: l) ++ nl ++ str "  ]") with (str "[" ++ (nl ++ printToks (t :: l) ++ (nl ++ str "  ")) ++ str "]")
      by (rewrite <- !app_assoc; reflexivity).
    constructor. apply items_toks; auto; [congruence|blank|blank].
Qed.

Definition memtext (m : chars) (kv : chars * json) : Prop :=
  exists w w1 w2 s w', m = w ++ str """" ++ fst kv ++ str """" ++ w1 ++ str ":" ++ w2 ++ s ++ w' /\
    ws w /\ clean (fst kv) /\ ws w1 /\ ws w2 /\ reads s (snd kv) /\ ws w'.
Lemma memtext_of w k s v : ws w -> clean k -> reads s v -> memtext (w ++ str "  """ ++ k ++ str """: " ++ s) (k, v).
Proof.
  intros W K R. exists (w ++ str "  "), [], (str " "), s, []. cbn [fst snd]. split.
  - rewrite app_nil_r, <- !app_assoc. reflexivity.
  - repeat split; auto; try blank; constructor.
Qed.
Lemma members_join ms kvs : Forall2 memtext ms kvs -> forall m kv w', memtext m kv -> ws w' ->
  members (m ++ concat (map (cons 44) ms) ++ w') (kv :: kvs).
Proof.
  induction 1 as [|m2 kv2 ms kvs M2 F IH]; intros m kv w' M W'; destruct M as (w & w1 & w2 & s & w3 & -> & W & K & W1 & W2 & R & W3); destruct kv as [k v]; cbn [fst snd] in *.
  - cbn [map concat app]. replace ((w ++ str """" ++ k ++ str """" ++ w1 ++ str ":" ++ w2 ++ s ++ w3) ++ w')
      with (w ++ str """" ++ k ++ str """" ++ w1 ++ str ":" ++ w2 ++ s ++ (w3 ++ w')) by (rewrite <- !app_assoc; reflexivity).
    constructor; auto. blank.
  - specialize (IH m2 kv2 w' M2 W').
    replace ((w ++ str """" ++ k ++ str """" ++ w1 ++ str ":" ++ w2 ++ s ++ w3) ++ concat (map (cons 44) (m2 :: ms)) ++ w')
      with (w ++ str """" ++ k ++ str """" ++ w1 ++ str ":" ++ w2 ++ s ++ w3 ++ str "," ++ (m2 ++ concat (map (cons 44) ms) ++ w')).
    2:{ cbn [map concat]. rewrite <- !app_assoc. reflexivity. }
    constructor; auto.
Qed.
(** Members behind the first, each after a comma *)
Definition part (x : chars) (kvs : list (chars * json)) : Prop :=
  exists ms, x = concat (map (cons 44) ms) /\ Forall2 memtext ms kvs.
Lemma part_nil : part [] [].
Proof. exists []. split; [reflexivity|constructor]. Qed.
Lemma part_app x y k l : part x k -> part y l -> part (x ++ y) (k ++ l).
Proof.
  intros (ms & -> & F) (ns & -> & G). exists (ms ++ ns). split; [rewrite map_app, concat_app; auto|apply Forall2_app; auto].
Qed.
Lemma part_one m kv : memtext m kv -> part (str "," ++ m) [kv].
Proof. intros M. exists [m]. split; [cbn; rewrite app_nil_r; reflexivity|constructor; auto]. Qed.
Lemma part_section k l : clean k -> Forall clean l -> part (str "," ++ nl ++ section k (printToks l)) [(k, strings l)].
Proof.
  intros K F. apply part_one. unfold section.
  replace (nl ++ str "  """ ++ k ++ str """: [" ++ nl ++ printToks l ++ nl ++ str "  ]")
    with (nl ++ str "  """ ++ k ++ str """: " ++ (str "[" ++ nl ++ printToks l ++ nl ++ str "  ]")) by reflexivity.
  apply memtext_of; [blank|auto|apply reads_toks; auto].
Qed.

Lemma dec_reads v : is_u32 v -> reads (dec v) (JNum v).
Proof. intros H. constructor. apply dec_ok. auto. Qed.

(** ** Protocols *)
Lemma protobits_any argv : forall t u s t' u' s', protobits argv t u s = Some (t', u', s') ->
  (argv <> [] \/ t || u || s = true) -> t' || u' || s' = true.
Proof.
  induction argv as [|a r IH]; intros t u s t' u' s'; cbn [protobits].
  - intros H [K|K]; [congruence|]. congruence.
  - intros H _. destruct (caseeq (str "tcp") a); [eapply IH; eauto|].
    destruct (caseeq (str "udp") a); [eapply IH; eauto; right; destruct t; auto|].
    destruct (caseeq (str "sctp") a); [eapply IH; eauto; right; destruct t, u; auto|discriminate].
Qed.
Lemma proto_back argv ps : parseProtocol argv = Some ps -> argv <> [] ->
  ps <> [] /\ parseProtocol (map protostr ps) = Some ps.
Proof.
  unfold parseProtocol at 1. destruct (protobits argv false false false) as [[[t u] s]|] eqn:E; [|discriminate].
  intros H N. pose proof (protobits_any _ _ _ _ _ _ _ E (or_introl N)) as K.
  match type of H with Some ?x = _ => assert (ps = x) as -> by congruence end.
  destruct t, u, s; cbn in K; try discriminate; (split; [discriminate|reflexivity]).
Qed.
Lemma protostr_clean p : clean (protostr p).
Proof. unfold protostr. destruct (p =? 6); [|destruct (p =? 17); [|destruct (p =? 132)]]; apply clean_str; reflexivity. Qed.
Lemma items_protos l : forall p w w', ws w -> ws w' ->
  items (w ++ str """" ++ protostr p ++ str """" ++ concat (map (fun q => str ", """ ++ protostr q ++ str """") l) ++ w')
        (map JStr (map protostr (p :: l))).
Proof.
  induction l as [|q l IH]; intros p w w' W W'.
  - cbn [map concat app]. replace (w ++ str """" ++ protostr p ++ str """" ++ w') with (w ++ (str """" ++ protostr p ++ str """") ++ w')
      by (rewrite <- !app_assoc; reflexivity).
    constructor; auto. constructor. apply protostr_clean.
  - specialize (IH q (str " ") w' ltac:(blank) W').
    replace (w ++ str """" ++ protostr p ++ str """" ++ concat (map (fun q0 => str ", """ ++ protostr q0 ++ str """") (q :: l)) ++ w')
      with (w ++ (str """" ++ protostr p ++ str """") ++ [] ++ str "," ++
            (str " " ++ str """" ++ protostr q ++ str """" ++ concat (map (fun q0 => str ", """ ++ protostr q0 ++ str """") l) ++ w')).
    2:{ cbn [map concat]. rewrite <- !app_assoc. reflexivity. }
    cbn [map] in *. constructor; auto; [|constructor]. constructor. apply protostr_clean.
Qed.
Lemma part_protos ps : ps <> [] -> part (str "," ++ nl ++ printProto ps) [(str "protocols", strings (map protostr ps))].
Proof.
  intros N. destruct ps as [|p l]; [congruence|]. apply part_one. unfold printProto. cbn [hd tl].
  replace (nl ++ str "  ""protocols"": [ """ ++ protostr p ++ str """" ++ concat (map (fun q => str ", """ ++ protostr q ++ str """") l) ++ str " ]")
    with (nl ++ str "  """ ++ str "protocols" ++ str """: " ++ (str "[" ++
          (str " " ++ str """" ++ protostr p ++ str """" ++ concat (map (fun q => str ", """ ++ protostr q ++ str """") l) ++ str " ") ++ str "]")).
  2:{ rewrite <- !app_assoc. reflexivity. }
  apply memtext_of; [blank|apply clean_str; reflexivity|]. constructor. apply items_protos; blank.
Qed.

(** ** CIDRs *)
Lemma land_le x m : 0 <= x -> 0 <= Z.land x m <= x.
Proof.
  intros H. split; [apply Z.land_nonneg; auto|].
  assert (E : x = Z.lor (Z.land x m) (Z.land x (Z.lnot m))).
  { rewrite <- Z.land_lor_distr_r, Z.lor_lnot_diag, Z.land_m1_r. auto. }
  rewrite E at 2. rewrite <- Z.lxor_lor, <- Z.add_nocarry_lxor.
  - assert (0 <= Z.land x (Z.lnot m)) by (apply Z.land_nonneg; auto). lia.
  - apply Z.bits_inj'. intros n Hn. rewrite !Z.land_spec, Z.lnot_spec, Z.bits_0 by auto. destruct (Z.testbit x n), (Z.testbit m n); auto.
  - apply Z.bits_inj'. intros n Hn. rewrite !Z.land_spec, Z.lnot_spec, Z.bits_0 by auto. destruct (Z.testbit x n), (Z.testbit m n); auto.
Qed.
Lemma wordbytes_ok w : 0 <= w < 2 ^ 64 -> be (wordbytes w) = w /\ length (wordbytes w) = 8%nat /\ Forall (fun b => 0 <= b < 256) (wordbytes w).
Proof.
  intros H. unfold wordbytes. cbn [map].
  assert (B : forall i, 0 <= i -> Z.land (Z.shiftr w i) 255 = (w / 2 ^ i) mod 256).
  { intros i Hi. change 255 with (Z.ones 8). rewrite Z.land_ones, Z.shiftr_div_pow2 by lia. reflexivity. }
  rewrite !B by lia. split; [|split; [reflexivity|]].
  - unfold be. cbn [fold_left]. change (2 ^ 0) with 1. rewrite Z.div_1_r.
    assert (D : forall i, 0 <= i -> w / 2 ^ i = 256 * (w / 2 ^ (i + 8)) + (w / 2 ^ i) mod 256).
    { intros i Hi. rewrite Z.pow_add_r, <- Z.div_div by (try lia; apply Z.pow_pos_nonneg; lia). apply Z.div_mod. discriminate. }
    pose proof (D 0 ltac:(lia)) as D0. pose proof (D 8 ltac:(lia)) as D1. pose proof (D 16 ltac:(lia)) as D2. pose proof (D 24 ltac:(lia)) as D3.
    pose proof (D 32 ltac:(lia)) as D4. pose proof (D 40 ltac:(lia)) as D5. pose proof (D 48 ltac:(lia)) as D6. pose proof (D 56 ltac:(lia)) as D7.
    cbn [Z.add Z.of_nat Pos.add Pos.succ Pos.add_carry] in *. assert (E : w / 2 ^ 64 = 0) by (apply Z.div_small; auto).
    change (2 ^ 0) with 1 in D0. rewrite Z.div_1_r in D0. rewrite E in D7. lia.
  - repeat constructor; apply Z.mod_pos_bound; lia.
Qed.

Definition ctext (P : printer) (c : cidr) : chars :=
  ntop P (wordbytes (fst (c_adr c)) ++ wordbytes (snd (c_adr c))) ++ str "/" ++ dec (printedLength c).
Lemma printCidrs_toks P l : printCidrs P l = printToks (map (ctext P) l).
Proof.
  induction l as [|c l IH]; [reflexivity|]. cbn [printCidrs map printToks]. rewrite IH. unfold printCidr, ctext.
  destruct l; rewrite <- !app_assoc; reflexivity.
Qed.

Lemma cidr_back L P s c : pton_ok L -> ntop_ok L P -> parseCidr L s = Ok (Some c) ->
  clean (ctext P c) /\ parseCidr L (ctext P c) = Ok (Some c).
Proof.
  intros PT (NT & _) H. unfold parseCidr in H.
  destruct (cidrText s) as [[x v4]| | |]; cbn [obind] in H; try discriminate.
  destruct (split_at 47 x) as [[adr m]|]; [|discriminate]. destruct (scanu m) as [[mask r]|] eqn:ES; [|discriminate].
  set (p := if v4 then u32 (mask + 96) else mask) in *. cbv zeta in H.
  destruct (128 <? p) eqn:EP; [discriminate|]. destruct (pton L adr) as [b|] eqn:EB; [|discriminate].
  destruct (cidrMask p) as [mk| | |] eqn:EM; cbn [obind] in H; try discriminate.
  assert (c = mkCidr (maskAdr (words b) mk) mk) as -> by congruence. clear H.
  assert (P0 : 0 <= p <= 128).
  { split; [|lia]. unfold p. destruct v4; [apply Z.mod_pos_bound; reflexivity|]. apply scanu_u32 in ES. unfold is_u32 in ES. lia. }
  pose proof (proj1 PT _ _ EB) as BB. destruct (words_eq b BB) as (hi & lo & W & _ & Hh & Hl).
  unfold ctext. rewrite (printed_mask p mk _ P0 EM). cbn [c_adr]. rewrite W. unfold maskAdr. cbn [fst snd].
  pose proof (land_le hi (fst mk) ltac:(lia)) as Lh. pose proof (land_le lo (snd mk) ltac:(lia)) as Ll.
  destruct (wordbytes_ok (Z.land hi (fst mk)) ltac:(lia)) as (W1 & N1 & F1).
  destruct (wordbytes_ok (Z.land lo (snd mk)) ltac:(lia)) as (W2 & N2 & F2).
  set (bb := wordbytes (Z.land hi (fst mk)) ++ wordbytes (Z.land lo (snd mk))) in *.
  assert (Bb : bytes 16 bb) by (split; [unfold bb; rewrite app_length, N1, N2; reflexivity|apply Forall_app; auto]).
  assert (Wb : words bb = (Z.land hi (fst mk), Z.land lo (snd mk))).
  { unfold words, bb. rewrite firstn_app, skipn_app, N1. rewrite (firstn_all2 (n := 8)), (skipn_all2 (n := 8)) by lia.
    cbn [Nat.sub firstn skipn app]. rewrite app_nil_r, W1, W2. auto. }
  destruct (NT bb Bb) as (T1 & T2 & T3 & T4 & T5).
  assert (U : is_u32 p) by (unfold is_u32, UINT_MAX; lia). pose proof (dec_ok p U) as DP.
  assert (DL : zlen (dec p) <= 3) by (apply dec_len; [change (10 ^ 3) with 1000; lia|lia]).
  split.
  - apply Forall_app. split; [exact T4|]. apply Forall_app. split; [apply clean_str; reflexivity|].
    destruct DP as (_ & F & _). eapply Forall_impl; [|exact F]. intros ch Hc. cbv beta in *. lia.
  - destruct (parse_v6 L (ntop P bb) bb (dec p) p PT T2 T3 T1 DP) as (m' & EM' & E); [lia| |].
    + rewrite !zlen_app. change (zlen (str "/")) with 1. lia.
    + assert (m' = mk) by congruence. subst m'. rewrite E, Wb. unfold maskAdr. cbn [fst snd]. rewrite !land_idem. auto.
Qed.
Lemma parseAll_back L P ss : pton_ok L -> ntop_ok L P -> forall cs, parseAll L ss = Ok (Some cs) ->
  length cs = length ss /\ Forall clean (map (ctext P) cs) /\ parseAll L (map (ctext P) cs) = Ok (Some cs).
Proof.
  intros PT NT. induction ss as [|s ss IH]; intros cs; cbn [parseAll].
  - intros H. assert (cs = []) as -> by congruence. repeat split; constructor.
  - destruct (parseCidr L s) as [[c|]| | |] eqn:E; cbn [obind]; try discriminate.
    destruct (parseAll L ss) as [[l|]| | |] eqn:E2; cbn [obind]; try discriminate.
    intros H. assert (cs = c :: l) as -> by congruence. destruct (IH l eq_refl) as (L1 & F & B).
    destruct (cidr_back L P s c PT NT E) as (C1 & C2). cbn [map length parseAll]. split; [congruence|]. split; [constructor; auto|].
    rewrite C2, B. reflexivity.
Qed.
Lemma cidrs_back L P ss cs : pton_ok L -> ntop_ok L P -> parseCidrs L ss = Ok (Some cs) ->
  Forall clean (map (ctext P) cs) /\ parseCidrs L (map (ctext P) cs) = Ok (Some cs).
Proof.
  intros PT NT. unfold parseCidrs. destruct (zlen ss =? 0) eqn:E1; [discriminate|]. destruct (32 <? zlen ss) eqn:E2; [discriminate|].
  intros H. destruct (parseAll_back L P ss PT NT cs H) as (L1 & F & B). split; auto.
  assert (zlen (map (ctext P) cs) = zlen ss) as -> by (unfold zlen; rewrite map_length; congruence). rewrite E1, E2. auto.
Qed.
