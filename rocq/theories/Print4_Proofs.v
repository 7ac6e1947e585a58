(** Proofs about the listing of flows (C65): whole flows and sets. *)
From Coq Require Import String Permutation Sorted.
From Verif Require Import Base Lists Cstr_Model Util_Spec Util_Proofs Rangeset_Model Rangeset_Spec
  Rangeset_Proofs Rangeset2_Proofs IpKey_Model IpKey_Spec IpKey_Proofs Match_Model Match_Spec Match_Proofs
  Flow_Model Flow_Spec Cidr_Proofs Flow_Proofs Flow2_Proofs Flow3_Proofs Print_Model Print_Spec Print_Proofs
  Print2_Proofs Print3_Proofs.

(** ** The parts of a flow *)
Lemma ifgiven_inv {A B} e (x : option A) (p : A -> outcome (option B)) r : ifgiven e x p = Ok (inr r) ->
  match x with None => r = None | Some a => exists b, p a = Ok (Some b) /\ r = Some b end.
Proof.
  destruct x as [a|]; cbn [ifgiven]; [|congruence]. destruct (p a) as [[b|]| | |]; cbn [obind]; try discriminate.
  intros H. exists b. split; [auto|congruence].
Qed.
Lemma makeFlow_inv L a f : makeFlow L a = Ok (inr f) ->
  zlen (a_name a) < MAX_NAME /\
  ifgiven "Invalid protocols" (a_protocols a) (fun v => Ok (parseProtocol v)) = Ok (inr (f_protocols f)) /\
  ifgiven "Invalid dports" (a_dports a) (parsePorts L) = Ok (inr (f_dports f)) /\
  ifgiven "Invalid dports" (a_sports a) (parsePorts L) = Ok (inr (f_sports f)) /\
  ifgiven "Invalid dsts" (a_dsts a) (parseCidrs L) = Ok (inr (f_dsts f)) /\
  ifgiven "Invalid srcs" (a_srcs a) (parseCidrs L) = Ok (inr (f_srcs f)) /\
  ifgiven "Match" (a_match a) (addMatches matchCreate) = Ok (inr (f_match f)).
Proof.
  unfold makeFlow. destruct (MAX_NAME <=? zlen (a_name a)) eqn:E; [discriminate|].
  destruct (ifgiven "Invalid protocols" (a_protocols a) _) as [[|p]| | |] eqn:E1; cbn [obind]; try discriminate.
  destruct (ifgiven "Invalid dports" (a_dports a) (parsePorts L)) as [[|dp]| | |] eqn:E2; cbn [obind]; try discriminate.
  destruct (ifgiven "Invalid dports" (a_sports a) (parsePorts L)) as [[|sp]| | |] eqn:E3; cbn [obind]; try discriminate.
  destruct (ifgiven "Invalid dsts" (a_dsts a) _) as [[|ds]| | |] eqn:E4; cbn [obind]; try discriminate.
  destruct (ifgiven "Invalid srcs" (a_srcs a) _) as [[|ss]| | |] eqn:E5; cbn [obind]; try discriminate.
  destruct (ifgiven "Match" (a_match a) _) as [[|m]| | |] eqn:E6; cbn [obind]; try discriminate.
  intros H. match type of H with Ok (inr ?g) = _ => assert (f = g) as -> by congruence end.
  cbn [f_protocols f_dports f_sports f_dsts f_srcs f_match]. repeat split; auto. lia.
Qed.

Lemma protos_listed L a f : makeFlow L a = Ok (inr f) -> a_protocols a <> Some [] ->
  exists o x, optional (f_protocols f) (fun l => Ok (printProto l)) = Ok x /\ part x (member "protocols" o strings) /\
    ifgiven "Invalid protocols" o (fun v => Ok (parseProtocol v)) = Ok (inr (f_protocols f)).
Proof.
  intros M N. destruct (makeFlow_inv _ _ _ M) as (_ & H & _). apply ifgiven_inv in H. destruct (a_protocols a) as [argv|].
  - destruct H as (ps & H & ->). destruct (proto_back argv ps) as (N2 & B); [congruence|congruence|].
    exists (Some (map protostr ps)), (str "," ++ nl ++ printProto ps). split; [reflexivity|]. split; [apply part_protos; auto|].
    cbn [ifgiven]. rewrite B. reflexivity.
  - rewrite H. exists None, []. split; [reflexivity|]. split; [apply part_nil|reflexivity].
Qed.

Lemma cidrs_listed L P e k (o : option (list chars)) cs : pton_ok L -> ntop_ok L P -> clean (str k) ->
  ifgiven e o (parseCidrs L) = Ok (inr cs) ->
  exists o' x, optional cs (fun l => Ok (section (str k) (printCidrs P l))) = Ok x /\ part x (member k o' strings) /\
    ifgiven e o' (parseCidrs L) = Ok (inr cs).
Proof.
  intros PT NT K H. apply ifgiven_inv in H. destruct o as [ss|].
  - destruct H as (l & H & ->). destruct (cidrs_back L P ss l PT NT H) as (C & B).
    exists (Some (map (ctext P) l)). eexists. split; [reflexivity|]. rewrite printCidrs_toks. split; [apply part_section; auto|].
    cbn [ifgiven]. rewrite B. reflexivity.
  - subst cs. exists None, []. split; [reflexivity|]. split; [apply part_nil|reflexivity].
Qed.

Lemma rtok_clean l : Forall (acceptable 1 65535) l -> Forall clean (map rtok l).
Proof.
  intros F. eapply Forall_impl; [|exact (rtoks_facts l F)]. intros t (_ & H). apply Forall_forall. intros c Hc. apply H in Hc. lia.
Qed.
Lemma ports_listed L P e k (o : option chars) t : qsort_ok (sort_nodes L) -> zlen (printbuf P) = 1024 -> clean (str k) ->
  ifgiven e o (parsePorts L) = Ok (inr t) -> all_or o (fun s => zlen s < 1023) ->
  exists dp x t', optional t (fun t => omap (section (str k)) (printPorts P t)) = Ok x /\ part x (member k dp strings) /\
    ifgiven e (option_map commas dp) (parsePorts L) = Ok (inr t') /\ forall v, inPorts t' v = inPorts t v.
Proof.
  intros Q B K H S. apply ifgiven_inv in H. destruct o as [s|].
  - destruct H as (t1 & H & ->). cbn [all_or] in S. destruct (parsed_ports L s t1 Q H) as (tr & PO & TL).
    assert (TT : zlen (text tr) < 1024) by lia. pose proof TT as T2. rewrite text_total in T2.
    destruct (ports_back L t1 tr Q PO) as (t' & E & I); [lia|].
    exists (Some (map rtok (ranges tr))). eexists. exists (Some t'). split.
    { cbn [optional]. rewrite (printPorts_exact P t1 tr B PO TT). cbn [omap obind]. reflexivity. }
    split; [apply part_section; auto; apply rtok_clean; destruct PO as (_ & _ & _ & FA & _); auto|].
    cbn [option_map ifgiven]. rewrite E. split; [reflexivity|auto].
  - subst t. exists None, [], None. split; [reflexivity|]. split; [apply part_nil|]. split; [reflexivity|auto].
Qed.

Lemma addMatches_inv ss m : addMatches matchCreate ss = Ok (Some m) -> add_texts matchCreate ss = Ok (inr m).
Proof.
  rewrite addMatches_texts. destruct (add_texts matchCreate ss) as [[e|x]| | |]; cbn [omap obind]; congruence.
Qed.
Lemma add_nowrap ss : Forall (fun s => forall i, matchParse s = Ok (inr i) -> no_wrap i) ss -> forall m0 m,
  add_texts m0 ss = Ok (inr m) -> exists m1, m = m0 ++ m1 /\ Forall no_wrap m1 /\ length m1 = length ss.
Proof.
  induction 1 as [|s ss Hs F IH]; intros m0 m H; cbn [add_texts] in H.
  - exists []. rewrite app_nil_r. split; [congruence|]. split; constructor.
  - unfold matchAdd in H. destruct (matchParse s) as [[e|i]| | |] eqn:E; cbn [obind] in H; try discriminate.
    apply IH in H. destruct H as (m1 & -> & W & LN). exists (i :: m1). rewrite <- app_assoc. split; [reflexivity|].
    split; [constructor; auto|cbn; congruence].
Qed.
Lemma match_listed P a ms : zlen (printbuf P) = 1024 -> no_wraps a -> all_or (a_match a) (fun l => zlen l <= 31) ->
  ifgiven "Match" (a_match a) (addMatches matchCreate) = Ok (inr ms) ->
  exists o x, optional ms (fun m => omap (section (str "match")) (printMatch P m)) = Ok x /\ part x (member "match" o strings) /\
    ifgiven "Match" o (addMatches matchCreate) = Ok (inr ms).
Proof.
  intros B W S H. unfold no_wraps in W. apply ifgiven_inv in H. destruct (a_match a) as [ss|].
  - destruct H as (m & H & ->). apply addMatches_inv in H. cbn [all_or] in *.
    destruct (add_nowrap ss W _ _ H) as (m1 & E & W1 & LN). cbn [matchCreate app] in E. subst m1.
    pose proof (stored_ok _ _ H W1) as OK.
    exists (Some (map item_text m)). eexists. split.
    { cbn [optional]. rewrite (printMatch_exact P m B OK) by (unfold zlen in *; lia). cbn [omap obind]. reflexivity. }
    split.
    { apply part_section; [apply clean_str; reflexivity|]. apply Forall_map. eapply Forall_impl; [|exact OK]. intros i Hi.
      eapply Forall_impl; [|exact (item_chars i Hi)]. intros c Hc. cbv beta in *. lia. }
    cbn [ifgiven]. rewrite addMatches_texts, (add_items m OK). reflexivity.
  - subst ms. exists None, []. split; [reflexivity|]. split; [apply part_nil|reflexivity].
Qed.

(** ** A flow *)
Lemma define_one L a f : libc_ok L -> typed a -> makeFlow L a = Ok (inr f) -> flowDefine L [] a = Ok (None, [f]).
Proof.
  intros (_ & _ & HS) T M. unfold flowDefine. rewrite M. cbn [obind]. unfold insertFlow. cbn [replaceFlow app]. unfold sortFlows.
  rewrite comparable_ok.
  2:{ intros g h [<-|[]] [<-|[]]. unfold is_int. lia. }
  cbn [obind]. destruct (HS [f]) as (P & _). apply Permutation_length_1_inv in P. rewrite P. reflexivity.
Qed.

Definition same_but_ports (f g : frec) : Prop :=
  f_ref f = f_ref g /\ f_udpencap f = f_udpencap g /\ f_protocols f = f_protocols g /\ f_dsts f = f_dsts g /\ f_srcs f = f_srcs g /\
  f_match f = f_match g /\ (forall v, inPorts (f_dports f) v = inPorts (f_dports g) v) /\ (forall v, inPorts (f_sports f) v = inPorts (f_sports g) v).
Lemma same_lookup f g ping k eth pkt u : same_but_ports f g -> flowLookup ping [f] k eth pkt u = flowLookup ping [g] k eth pkt u.
Proof.
  intros (R & U & PR & D & S & M & DP & SP). cbn [flowLookup]. unfold flowMatch. rewrite R, U, PR, D, S, M, DP, SP. reflexivity.
Qed.

Lemma flow_listed L P a f : libc_ok L -> ntop_ok L P -> clean_targets P -> typed a -> listable a -> no_wraps a ->
  makeFlow L a = Ok (inr f) ->
  exists s v b n, printFlow P f = Ok s /\ reads s v /\ shows v b n (target P (a_ref b)) /\ equivalent L a b.
Proof.
  intros HL NT CT T LS NW M. pose proof HL as (PT & Q & _). pose proof NT as (_ & PB & CN).
  destruct LS as (LN & LP & LPR & LD & LSP & LM).
  destruct (makeFlow_inv _ _ _ M) as (ML & M1 & M2 & M3 & M4 & M5 & M6).
  destruct (makeFlow_fields _ _ _ M) as (FN & FP & FR & FU & _).
  destruct (protos_listed L a f M LPR) as (po & px & PE & PP & PI).
  destruct (cidrs_listed L P "Invalid dsts" "dests" _ _ PT NT ltac:(apply clean_str; reflexivity) M4) as (dso & dsx & DSE & DSP & DSI).
  destruct (cidrs_listed L P "Invalid srcs" "srcs" _ _ PT NT ltac:(apply clean_str; reflexivity) M5) as (sso & ssx & SSE & SSP & SSI).
  destruct (ports_listed L P "Invalid dports" "dports" _ _ Q PB ltac:(apply clean_str; reflexivity) M2 LD) as (dpo & dpx & dt & DPE & DPP & DPI & DPV).
  destruct (ports_listed L P "Invalid dports" "sports" _ _ Q PB ltac:(apply clean_str; reflexivity) M3 LSP) as (spo & spx & st & SPE & SPP & SPI & SPV).
  destruct (match_listed P a _ PB NW LM M6) as (mo & mx & ME & MP & MI).
  set (b := mkArgs (a_name a) (a_priority a) (a_ref a) po (option_map commas dpo) (option_map commas spo) dso sso mo (a_udpencap a)).
  set (g := mkF (a_name a) (a_priority a) (a_ref a) (f_protocols f) dt st (f_dsts f) (f_srcs f) (f_match f) (a_udpencap a)).
  assert (MB : makeFlow L b = Ok (inr g)).
  { unfold makeFlow, b. cbn [a_name a_priority a_ref a_protocols a_dports a_sports a_dsts a_srcs a_match a_udpencap].
    replace (MAX_NAME <=? zlen (a_name a)) with false by lia.
    rewrite PI. cbn [obind]. rewrite DPI. cbn [obind]. rewrite SPI. cbn [obind]. rewrite DSI. cbn [obind]. rewrite SSI. cbn [obind].
    rewrite MI. cbn [obind]. reflexivity. }
  assert (TB : typed b) by exact T.
  destruct T as (T1 & T2).
  assert (PU : u32 (f_priority f) = a_priority a) by (rewrite FP; unfold u32; apply Z.mod_small; unfold is_int in T1; unfold two32; lia).
  assert (PUU : is_u32 (a_priority a)) by (unfold is_u32, UINT_MAX; unfold is_int in T1; lia).
  set (uv := if a_udpencap a =? 0 then [] else [(str "udpencap", JNum (a_udpencap a))]).
  set (ux := if 0 <? f_udpencap f then str "," ++ nl ++ str "  ""udpencap"": " ++ dec (f_udpencap f) else []).
  assert (UP : part ux uv).
  { unfold ux, uv. rewrite FU. destruct (a_udpencap a =? 0) eqn:E.
    - replace (0 <? a_udpencap a) with false by lia. apply part_nil.
    - replace (0 <? a_udpencap a) with true by lia. apply part_one.
      apply (memtext_of nl (str "udpencap") (dec (a_udpencap a)) (JNum (a_udpencap a))); [blank|apply clean_str; reflexivity|].
      apply dec_reads. unfold is_u32, UINT_MAX. lia. }
  set (cx := str "," ++ nl ++ str "  ""matches_count"": " ++ dec (counts P f)).
  assert (CP : part cx [(str "matches_count", JNum (counts P f))]).
  { apply part_one. apply (memtext_of nl (str "matches_count") (dec (counts P f)) (JNum (counts P f))); [blank|apply clean_str; reflexivity|].
    apply dec_reads. apply CN. }
  set (rx := match refname P with None => [] | Some h => str "," ++ nl ++ str "  ""user_ref"": """ ++ h (f_ref f) ++ str """" end).
  assert (RP : part rx (member "user_ref" (target P (a_ref a)) JStr)).
  { unfold rx, target. specialize (CT (a_ref a)). unfold target in CT. rewrite FR. destruct (refname P) as [h|]; cbn [option_map member] in *; [|apply part_nil].
    apply part_one. apply (memtext_of nl (str "user_ref") (str """" ++ h (a_ref a) ++ str """") (JStr (h (a_ref a)))); [blank|apply clean_str; reflexivity|].
    constructor. apply CT. reflexivity. }
  assert (N1 : memtext (nl ++ str "  ""name"": """ ++ a_name a ++ str """") (str "name", JStr (a_name a))).
  { apply (memtext_of nl (str "name") (str """" ++ a_name a ++ str """")); [blank|apply clean_str; reflexivity|]. constructor. auto. }
  assert (N2 : part (str "," ++ nl ++ str "  ""priority"": " ++ dec (a_priority a)) [(str "priority", JNum (a_priority a))]).
  { apply part_one. apply (memtext_of nl (str "priority") (dec (a_priority a))); [blank|apply clean_str; reflexivity|]. apply dec_reads. auto. }
  pose proof (part_app _ _ _ _ N2 (part_app _ _ _ _ PP (part_app _ _ _ _ DSP (part_app _ _ _ _ DPP (part_app _ _ _ _ SSP
    (part_app _ _ _ _ SPP (part_app _ _ _ _ MP (part_app _ _ _ _ UP (part_app _ _ _ _ CP RP))))))))) as (ms & EX & FM).
  eexists. eexists. exists b, (counts P f). split; [|split; [|split]].
  - unfold printFlow. rewrite PE. cbn [obind]. rewrite DSE. cbn [obind]. rewrite DPE. cbn [obind]. rewrite SSE. cbn [obind].
    rewrite SPE. cbn [obind]. rewrite ME. cbn [obind]. reflexivity.
  - fold ux. fold cx. fold rx. rewrite PU, FN.
    match goal with |- reads ?x _ => replace x with (str "{" ++ ((nl ++ str "  ""name"": """ ++ a_name a ++ str """") ++ concat (map (cons 44) ms) ++ nl) ++ str "}") end.
    2:{ rewrite <- EX. unfold cx. change (str """," ++ nl ++ ?x) with (str """" ++ str "," ++ nl ++ x).
        rewrite <- !app_assoc. reflexivity. }
    apply reads_obj. apply (members_join ms _ FM); [exact N1|blank].
  - exists dpo, spo. split; [reflexivity|]. split; [reflexivity|]. unfold b. cbn [a_name a_priority a_ref a_protocols a_dsts a_srcs a_match a_udpencap].
    reflexivity.
  - repeat split. exists [f], [g]. split; [apply define_one; auto; split; auto|]. split; [apply define_one; auto|].
    intros. apply same_lookup. unfold same_but_ports, g. cbn [f_ref f_udpencap f_protocols f_dsts f_srcs f_match f_dports f_sports].
    repeat split; auto.
Qed.

(** ** Sets *)
Lemma reads_set P l vs : Forall2 (fun f v => exists s, printFlow P f = Ok s /\ reads s v) l vs ->
  exists s, printFlows P l = Ok s /\ (l <> [] -> items s vs) /\ (l = [] -> s = []).
Proof.
  induction 1 as [|f v l vs (s & E & R) F IH]; cbn [printFlows].
  - exists []. split; [auto|]. split; [congruence|auto].
  - destruct IH as (r & -> & I1 & I2). rewrite E. cbn [obind]. eexists. split; [reflexivity|]. split; [|discriminate].
    intros _. destruct l as [|g l].
    + rewrite (I2 eq_refl). inversion F; subst. replace (s ++ [] ++ []) with ([] ++ s ++ []) by reflexivity. constructor; auto; constructor.
    + specialize (I1 ltac:(congruence)). replace (s ++ (str "," ++ nl) ++ r) with ([] ++ s ++ [] ++ str "," ++ (nl ++ r)) by (rewrite <- !app_assoc; reflexivity).
      constructor; auto; [constructor|constructor|].
      clear - I1. inversion I1; subst.
      * rewrite app_assoc. constructor; auto. blank.
      * rewrite app_assoc. constructor; auto. blank.
Qed.

Lemma choose {A B} (R : A -> B -> Prop) l : (forall x, In x l -> exists y, R x y) -> exists ys, Forall2 R l ys.
Proof.
  induction l as [|x l IH]; intros H; [exists []; constructor|]. destruct (H x) as (y & Y); [cbn; auto|].
  destruct IH as (ys & F); [intros z Z; apply H; cbn; auto|]. exists (y :: ys). constructor; auto.
Qed.

Lemma set_listed L P ops set ans : libc_ok L -> ntop_ok L P -> clean_targets P -> run L [] ops = Ok (set, ans) ->
  (forall n a, current ops ans n = Some a -> typed a /\ listable a /\ no_wraps a) ->
  exists s vs, flowSetPrint P set None = Ok s /\ json_text s (JArr vs) /\ listing L (target P) (current ops ans) vs.
Proof.
  intros HL NT CT H HA. destruct (run_inv L ops HL [] _ set ans (inv_nil L) H) as ((I1 & I2 & I3 & I4) & _). fold (current ops ans) in *.
  destruct (choose (fun f (w : json * fargs) => exists s a n, printFlow P f = Ok s /\ reads s (fst w) /\
     shows (fst w) (snd w) n (target P (a_ref (snd w))) /\ current ops ans (f_name f) = Some a /\ makeFlow L a = Ok (inr f) /\ equivalent L a (snd w)) set) as (ws & F).
  { intros f Hf. destruct (I3 f Hf) as (a & A1 & A2). destruct (HA _ _ A1) as (T & LS & NW).
    destruct (flow_listed L P a f HL NT CT T LS NW A2) as (s & v & b & n & P1 & P2 & P3 & P4).
    exists (v, b), s, a, n. auto 7. }
  destruct (reads_set P set (map fst ws)) as (s & E & IT1 & IT2).
  { clear - F. induction F as [|f w l ws (s & a & n & A) F IH]; cbn [map]; constructor; auto. exists s. tauto. }
  exists (str "[" ++ s ++ str "]" ++ nl), (map fst ws). cbn [flowSetPrint]. rewrite E. split; [reflexivity|]. split.
  { exists [], (str "[" ++ s ++ str "]"), nl. split; [cbn [app]; rewrite <- !app_assoc; reflexivity|]. split; [constructor|]. split; [blank|].
    destruct set as [|f l]; [|apply reads_arr; apply IT1; congruence]. inversion F; subst. rewrite IT2 by auto. apply (reads_arr0 []). constructor. }
  exists (map snd ws). split; [|split; [|split; [|split]]].
  - clear - F. induction F as [|f w l ws (s & a & n & A) F IH]; cbn [map]; constructor; auto. exists n. tauto.
  - assert (EN : map a_name (map snd ws) = names set).
    { clear - F. unfold names. induction F as [|f w l ws (s & a & n & _ & _ & _ & A1 & A2 & A3) F IH]; cbn [map]; auto. f_equal; auto.
      destruct A3 as (<- & _). destruct (makeFlow_fields _ _ _ A2) as (N & _). congruence. }
    rewrite EN. exact I2.
  - clear - F I1. unfold by_priority in I1. induction F as [|f w l ws (s & a & n & _ & _ & _ & A1 & A2 & A3) F IH]; cbn [map]; [constructor|].
    apply StronglySorted_inv in I1. destruct I1 as (S & FA). constructor; [auto|].
    assert (PW : forall f w, (exists s a n, printFlow P f = Ok s /\ reads s (fst w) /\
        shows (fst w) (snd w) n (target P (a_ref (snd w))) /\ current ops ans (f_name f) = Some a /\ makeFlow L a = Ok (inr f) /\ equivalent L a (snd w)) ->
        a_priority (snd w) = f_priority f).
    { intros f0 w0 (s0 & a0 & n0 & _ & _ & _ & _ & M & EQ). destruct EQ as (_ & <- & _). destruct (makeFlow_fields _ _ _ M) as (_ & K & _). auto. }
    assert (PF : a_priority (snd w) = f_priority f).
    { destruct A3 as (_ & <- & _). destruct (makeFlow_fields _ _ _ A2) as (_ & K & _). auto. }
    rewrite PF. clear - F FA PW. induction F as [|g u l ws A F IH]; cbn [map]; constructor.
    + rewrite (PW _ _ A). apply Forall_inv in FA. auto.
    + apply IH. apply Forall_inv_tail in FA. auto.
  - intros n a A. destruct (I4 _ _ A) as (AN & f & Hf & M).
    clear - F Hf M AN A. induction F as [|g w l ws (s & a' & k & _ & _ & _ & A1 & A2 & A3) F IH]; [destruct Hf|].
    destruct Hf as [->|Hf].
    + exists (snd w). split; [cbn; auto|]. destruct (makeFlow_fields _ _ _ M) as (N & _). rewrite N, AN in A1.
      assert (a' = a) by congruence. subst. auto.
    + destruct (IH Hf) as (b & B1 & B2). exists b. split; auto. cbn. auto.
  - intros b B. apply in_map_iff in B. destruct B as (w & <- & W). clear - F W.
    induction F as [|g u l ws (s & a & k & _ & _ & _ & A1 & A2 & A3) F IH]; [destruct W|]. destruct W as [->|W]; [|auto].
    exists a. split; [|auto]. destruct A3 as (<- & _). destruct (makeFlow_fields _ _ _ A2) as (N & _). congruence.
Qed.

Lemma one_listed L P ops set ans n a : libc_ok L -> ntop_ok L P -> clean_targets P -> run L [] ops = Ok (set, ans) ->
  current ops ans n = Some a -> typed a -> listable a -> no_wraps a ->
  exists s v b k, flowSetPrint P set (Some n) = Ok s /\ json_text s v /\ shows v b k (target P (a_ref b)) /\ equivalent L a b.
Proof.
  intros HL NT CT H A T LS NW. destruct (run_inv L ops HL [] _ set ans (inv_nil L) H) as ((I1 & I2 & I3 & I4) & _). fold (current ops ans) in *.
  destruct (I4 _ _ A) as (AN & f & Hf & M). cbn [flowSetPrint]. pose proof (find_name set n I2) as FN. destruct (findName set n) as [g|].
  - destruct FN as (G & GN). destruct (I3 g G) as (a' & A1 & A2). rewrite GN in A1. assert (a' = a) by congruence. subst a'.
    destruct (flow_listed L P a g HL NT CT T LS NW A2) as (s & v & b & k & P1 & P2 & P3 & P4).
    exists s, v, b, k. split; auto. split; [|auto]. exists [], s, []. rewrite app_nil_r. repeat split; auto; constructor.
  - exfalso. apply FN. destruct (makeFlow_fields _ _ _ M) as (K & _). rewrite <- AN, <- K. apply in_map. auto.
Qed.
Lemma none_listed L P ops set ans n : libc_ok L -> run L [] ops = Ok (set, ans) ->
  current ops ans n = None -> flowSetPrint P set (Some n) = Ok [].
Proof.
  intros HL H A. destruct (run_inv L ops HL [] _ set ans (inv_nil L) H) as ((I1 & I2 & I3 & I4) & _). fold (current ops ans) in *.
  cbn [flowSetPrint]. pose proof (find_name set n I2) as FN. destruct (findName set n) as [g|]; auto.
  destruct FN as (G & GN). destruct (I3 g G) as (a' & A1 & A2). congruence.
Qed.

(** ** Names *)
Lemma items_names l : forall n w w', Forall clean (n :: l) -> ws w -> ws w' ->
  items (w ++ str "  """ ++ n ++ str """" ++ concat (map (fun m => str "," ++ nl ++ str "  """ ++ m ++ str """") l) ++ w') (map JStr (n :: l)).
Proof.
  induction l as [|m l IH]; intros n w w' F W W'.
  - cbn [map concat app]. replace (w ++ str "  """ ++ n ++ str """" ++ w') with ((w ++ str "  ") ++ (str """" ++ n ++ str """") ++ w')
      by (rewrite <- !app_assoc; reflexivity).
    constructor; [blank| |auto]. constructor. apply Forall_inv in F. auto.
  - specialize (IH m nl w' (Forall_inv_tail F) ltac:(blank) W').
    replace (w ++ str "  """ ++ n ++ str """" ++ concat (map (fun m0 => str "," ++ nl ++ str "  """ ++ m0 ++ str """") (m :: l)) ++ w')
      with ((w ++ str "  ") ++ (str """" ++ n ++ str """") ++ [] ++ str "," ++
            (nl ++ str "  """ ++ m ++ str """" ++ concat (map (fun m0 => str "," ++ nl ++ str "  """ ++ m0 ++ str """") l) ++ w')).
    2:{ cbn [map concat]. rewrite <- !app_assoc. reflexivity. }
    cbn [map] in *. constructor; [blank| |constructor|exact IH]. constructor. apply Forall_inv in F. auto.
Qed.
Lemma names_listed L ops set ans : libc_ok L -> run L [] ops = Ok (set, ans) ->
  (forall n a, current ops ans n = Some a -> clean n) ->
  exists ns, json_text (flowSetPrintNames set) (strings ns) /\ NoDup ns /\
    forall n, In n ns <-> exists a, current ops ans n = Some a.
Proof.
  intros HL H HC. destruct (run_inv L ops HL [] _ set ans (inv_nil L) H) as ((I1 & I2 & I3 & I4) & _). fold (current ops ans) in *.
  assert (IN : forall n, In n (names set) <-> exists a, current ops ans n = Some a).
  { intros n. split.
    - intros K. apply in_map_iff in K. destruct K as (f & <- & F). destruct (I3 f F) as (a & A & _). eauto.
    - intros (a & A). destruct (I4 _ _ A) as (AN & f & F & M). destruct (makeFlow_fields _ _ _ M) as (K & _). rewrite <- AN, <- K. apply in_map. auto. }
  exists (names set). split; [|split; auto].
  assert (FC : Forall clean (names set)). { apply Forall_forall. intros n K. apply IN in K. destruct K as (a & A). eauto. }
  clear - FC. unfold flowSetPrintNames, strings. destruct set as [|f l].
  - exists [], (str "[]"), nl. repeat split; [constructor|blank|]. apply (reads_arr0 []). constructor.
  - exists [], (str "[" ++ (nl ++ str "  """ ++ f_name f ++ str """" ++ concat (map (fun m => str "," ++ nl ++ str "  """ ++ m ++ str """") (names l)) ++ nl) ++ str "]"), nl.
    split.
    { unfold names. rewrite map_map. cbn [app]. rewrite <- !app_assoc. reflexivity. }
    split; [constructor|]. split; [blank|]. apply reads_arr. apply items_names; auto; blank.
Qed.

(** ** No definition makes the listing go wrong *)
Lemma printFlow_safe L P a f : libc_ok L -> zlen (printbuf P) = 1024 -> makeFlow L a = Ok (inr f) -> exists s, printFlow P f = Ok s.
Proof.
  intros (_ & Q & _) PB M. destruct (makeFlow_inv _ _ _ M) as (ML & M1 & M2 & M3 & M4 & M5 & M6).
  assert (PS : forall e o t k, ifgiven e o (parsePorts L) = Ok (inr t) ->
    exists s, optional t (fun t => omap (section k) (printPorts P t)) = Ok s).
  { intros e o t k H. apply ifgiven_inv in H. destruct o as [x|]; [|subst t; cbn; eauto]. destruct H as (t1 & H & ->).
    destruct (parsed_ports L x t1 Q H) as (tr & PO & TL). destruct (printPorts_safe P t1 tr PB PO) as (s & E); [lia|].
    cbn [optional]. rewrite E. cbn [omap obind]. eauto. }
  unfold printFlow.
  assert (O1 : exists s, optional (f_protocols f) (fun l => Ok (printProto l)) = Ok s) by (destruct (f_protocols f); cbn; eauto). destruct O1 as (s1 & ->). cbn [obind].
  assert (O1 : exists s, optional (f_dsts f) (fun l => Ok (section (str "dests") (printCidrs P l))) = Ok s) by (destruct (f_dsts f); cbn [optional obind]; eauto). destruct O1 as (s2 & ->). cbn [obind].
  destruct (PS _ _ _ (str "dports") M2) as (s3 & ->). cbn [obind].
  assert (O1 : exists s, optional (f_srcs f) (fun l => Ok (section (str "srcs") (printCidrs P l))) = Ok s) by (destruct (f_srcs f); cbn [optional obind]; eauto). destruct O1 as (s4 & ->). cbn [obind].
  destruct (PS _ _ _ (str "sports") M3) as (s5 & ->). cbn [obind].
  assert (O1 : exists s, optional (f_match f) (fun m => omap (section (str "match")) (printMatch P m)) = Ok s).
  { destruct (f_match f) as [m|]; cbn [optional]; [|eauto]. destruct (printMatch_safe P m PB) as (s & ->). cbn [omap obind]. eauto. }
  destruct O1 as (s6 & ->). cbn [obind]. eauto.
Qed.
Lemma listing_safe L P ops set ans name : libc_ok L -> zlen (printbuf P) = 1024 -> run L [] ops = Ok (set, ans) ->
  exists s, flowSetPrint P set name = Ok s.
Proof.
  intros HL PB H. destruct (run_inv L ops HL [] _ set ans (inv_nil L) H) as ((I1 & I2 & I3 & I4) & _).
  assert (S : forall f, In f set -> exists s, printFlow P f = Ok s).
  { intros f F. destruct (I3 f F) as (a & _ & M). eapply printFlow_safe; eauto. }
  destruct name as [n|]; cbn [flowSetPrint].
  - pose proof (find_name set n I2) as FN. destruct (findName set n) as [g|]; [|eauto]. destruct FN as (G & _). auto.
  - assert (K : exists s, printFlows P set = Ok s).
    { clear - S. induction set as [|f l IH]; cbn [printFlows]; [eauto|]. destruct (S f) as (s & ->); [cbn; auto|].
      destruct IH as (r & ->); [intros g G; apply S; cbn; auto|]. cbn [obind]. eauto. }
    destruct K as (s & ->). cbn [obind]. eauto.
Qed.
