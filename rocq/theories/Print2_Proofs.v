(** Proofs about the listing of flows (C65): the text as JSON. *)
From Coq Require Import String Permutation Sorted.
From Verif Require Import Base Lists Cstr_Model Util_Spec Util_Proofs Rangeset_Model Rangeset_Spec
  Rangeset_Proofs Rangeset2_Proofs IpKey_Model IpKey_Spec IpKey_Proofs Match_Model Match_Spec Match_Proofs
  Flow_Model Flow_Spec Cidr_Proofs Flow_Proofs Print_Model Print_Spec Print_Proofs.

(** ** Tokens *)
Lemma toks_exact d s l : pieces d s l -> toks (length s) d s = Ok l.
Proof.
  intros P. destruct (toks_total d (length s) s (le_n _)) as (l' & E). rewrite E. f_equal.
  eapply pieces_unique; eauto using toks_pieces.
Qed.
Lemma pieces_commas d l : In 44 d -> Forall (fun t => t <> [] /\ forall c, In c t -> ~ In c d) l -> pieces d (commas l) l.
Proof.
  intros D. induction 1 as [|t l (T1 & T2) F IH]; [constructor; intros c []|].
  destruct l as [|u l]; [apply (pieces_last d [] t); auto; intros c []|].
  change (commas (t :: u :: l)) with ([] ++ t ++ 44 :: commas (u :: l)). constructor; auto. intros c [].
Qed.
Lemma skip_none p s : (match s with [] => True | c :: _ => p c = false end) -> skip p s = s.
Proof. destruct s as [|c s]; cbn [skip]; [auto|]. intros ->. auto. Qed.
Lemma span_app p t s : (forall c, In c t -> p c = true) -> (match s with [] => True | c :: _ => p c = false end) ->
  span p (t ++ s) = (t, s).
Proof.
  intros H S. induction t as [|c t IH]; cbn [app span].
  - destruct s as [|c s]; [auto|]. cbn [span]. rewrite S. auto.
  - rewrite H by (cbn; auto). rewrite IH; auto. intros x Hx. apply H. cbn. auto.
Qed.
Lemma inset_iff d c : inset d c = true <-> In c d.
Proof.
  unfold inset. rewrite existsb_exists. split.
  - intros (x & I & E). apply Z.eqb_eq in E. subst. auto.
  - intros I. exists c. split; [auto|lia].
Qed.
Lemma strtok_first d t s : In 44 d -> t <> [] -> (forall c, In c t -> ~ In c d) ->
  strtok_r d (t ++ match s with [] => [] | _ => 44 :: commas s end) =
  Some (t, commas s).
Proof.
  intros D T H. unfold strtok_r.
  assert (H' : forall c, In c t -> inset d c = false).
  { intros c Hc. destruct (inset d c) eqn:E; [|auto]. apply inset_iff in E. exfalso. eapply H; eauto. }
  rewrite skip_none.
  2:{ destruct t as [|c t]; [congruence|]. cbn [app]. apply H'. cbn. auto. }
  destruct t as [|c t]; [congruence|]. cbn [app]. rewrite app_comm_cons.
  rewrite span_app.
  - destruct s; reflexivity.
  - intros x Hx. rewrite H'; auto.
  - destruct s; [auto|]. apply inset_iff in D. rewrite D. auto.
Qed.

(** ** Ports *)
Lemma text_nz tr : Forall (fun c => c <> 0) (text tr).
Proof.
  unfold text. induction (ranges tr) as [|r l IH]; [constructor|]. cbn [map concat]. apply Forall_app. split; [|exact IH].
  assert (D : forall v, Forall (fun c => c <> 0) (dec v)).
  { intros v. unfold dec. assert (G : forall fuel v acc, Forall (fun c => c <> 0) acc -> Forall (fun c => c <> 0) (dec_aux fuel v acc)).
    { induction fuel as [|fuel IHf]; intros w acc A; cbn [dec_aux]; [auto|].
      assert (Forall (fun c => c <> 0) ((48 + w mod 10) :: acc)) by (constructor; auto; pose proof (Z.mod_pos_bound w 10); lia).
      destruct (w <? 10); auto. }
    apply G. constructor. }
  unfold range_text. destruct (_ =? _); rewrite ?Forall_app; repeat split; auto; repeat constructor; lia.
Qed.

Lemma printPorts_safe P t tr : zlen (printbuf P) = 1024 -> ports_of t tr -> zlen (text tr) <= 1025 ->
  exists s, printPorts P t = Ok s.
Proof.
  intros B (R & RT & CN & FA & D & _) L. unfold printPorts, rangeSetString. rewrite RT.
  assert (K : exists b rc, (if rt tr =? 0 then do b <- aset (printbuf P) 0 0; Ok (b, 0) else
     do (b, p) <- printTree (S (Z.to_nat (rangeSetSize t))) (hp t) (rt tr) (printbuf P) 0;
     match p with Some _ => Ok (b, 0) | None => Ok (b, 1) end) = Ok (b, rc) /\ In 0 b /\ 0 <= rc).
  { destruct (rt tr =? 0) eqn:E.
    - rewrite aset_in_range by lia. cbn [obind]. do 2 eexists. split; [reflexivity|]. split; [|lia].
      destruct (printbuf P); [cbn in B; lia|]. left. reflexivity.
    - destruct (printTree_safe (hp t) tr _ (printbuf P) 0 R D) as (b & r & -> & LB & _ & _ & I0); try lia; [unfold UINT_MAX; lia|].
      cbn [obind]. exists b. destruct r as [q|].
      + exists 0. split; [reflexivity|]. split; [|lia]. apply I0; [lia|]. intros ->. cbn in E. lia.
      + exists 1. split; [reflexivity|]. split; [|lia]. apply I0; [lia|]. intros ->. cbn in E. lia. }
  destruct K as (b & rc & E & I0 & RC).
  match goal with |- context [obind ?x _] => replace x with (Ok (b, rc)) end. cbn [obind].
  replace (rc <? 0) with false by lia. destruct (strbuf_in b I0) as (s & ->). cbn [obind].
  destruct (toks_total [44; 32] (length s) s (le_n _)) as (l & ->). cbn [obind]. eauto.
Qed.

(** A range without the comma *)
Definition rtok (r : range) : chars := if fst r =? snd r then dec (fst r) else dec (fst r) ++ [45] ++ dec (snd r).
Lemma rtok_text r : range_text (fst r) (snd r) = rtok r ++ [44].
Proof. unfold range_text, rtok. destruct (_ =? _); [auto|]. rewrite <- !app_assoc. auto. Qed.
Lemma rtok_len r : zlen (rtok r) + 1 = cost r.
Proof. unfold cost. rewrite rtok_text, zlen_app. reflexivity. Qed.
Lemma rtok_chars r : acceptable 1 65535 r -> rtok r <> [] /\ forall c, In c (rtok r) -> c = 45 \/ 48 <= c <= 57.
Proof.
  destruct r as [f e]. intros (A1 & A2 & A3). unfold rtok. cbn [fst snd] in *.
  assert (U : forall v, 1 <= v <= 65535 -> dec v <> [] /\ forall c, In c (dec v) -> 48 <= c <= 57).
  { intros v V. destruct (dec_ok v) as (N & F & _); [unfold is_u32, UINT_MAX; lia|]. rewrite Forall_forall in F. auto. }
  destruct (U f) as (F1 & F2); [lia|]. destruct (U e) as (E1 & E2); [lia|]. destruct (f =? e); [split; auto|].
  split; [destruct (dec f); cbn; congruence|]. intros c. rewrite !in_app_iff. intros [H|[[<-|[]]|H]]; auto.
Qed.

Lemma printPorts_exact P t tr : zlen (printbuf P) = 1024 -> ports_of t tr -> zlen (text tr) < 1024 ->
  printPorts P t = Ok (printToks (map rtok (ranges tr))).
Proof.
  intros B (R & RT & CN & FA & D & _) L. unfold printPorts, rangeSetString. rewrite RT.
  assert (K : exists b rest, (if rt tr =? 0 then do b <- aset (printbuf P) 0 0; Ok (b, 0) else
     do (b, p) <- printTree (S (Z.to_nat (rangeSetSize t))) (hp t) (rt tr) (printbuf P) 0;
     match p with Some _ => Ok (b, 0) | None => Ok (b, 1) end) = Ok (b, 0) /\ b = text tr ++ 0 :: rest).
  { destruct (rt tr =? 0) eqn:E.
    - rewrite aset_in_range by lia. cbn [obind]. assert (tr = Lf) as -> by (eapply rt_nz; eauto; lia).
      destruct (printbuf P) as [|c b]; [cbn in B; lia|]. exists (0 :: b), b. split; reflexivity.
    - rewrite printTree_ok; auto; try lia; [|unfold UINT_MAX; lia]. cbn [obind]. eexists. exists (skipn (Z.to_nat (0 + zlen (text tr) + 1)) (printbuf P)). split; [reflexivity|].
      destruct tr as [|id r tl tr]; [cbn in E; lia|]. unfold printed.
      destruct (text (Nd id r tl tr)) as [|c s] eqn:ET.
      { exfalso. rewrite text_nd in ET. pose proof (range_text_len (fst r) (snd r)) as H.
        apply app_eq_nil in ET. destruct ET as (_ & ET). apply app_eq_nil in ET. destruct ET as (ET & _).
        rewrite ET in H. unfold zlen in H. cbn in H. lia. }
      cbn [Z.to_nat firstn app]. reflexivity. }
  destruct K as (b & rest & E & EB).
  match goal with |- context [obind ?x _] => replace x with (Ok (b, 0)) end. cbn [obind].
  change (0 <? 0) with false. cbv iota. rewrite EB, strbuf_app by apply text_nz. cbn [obind].
  rewrite (toks_exact _ _ (map rtok (ranges tr))); [reflexivity|].
  unfold text. clear - FA. induction FA as [|r l A F IH]; cbn [map concat]; [constructor; intros c []|].
  rewrite rtok_text, <- app_assoc. cbn [app]. destruct (rtok_chars r A) as (N & C).
  apply (pieces_cons [44; 32] [] (rtok r) 44); auto; try (intros c []); [|cbn; auto].
  intros c H K. apply C in H. destruct K as [<-|[<-|[]]]; lia.
Qed.

Lemma rtoks_facts l : Forall (acceptable 1 65535) l ->
  Forall (fun t => t <> [] /\ forall c, In c t -> c = 45 \/ 48 <= c <= 57) (map rtok l).
Proof. induction 1 as [|r l A F IH]; cbn [map]; constructor; auto. apply rtok_chars. auto. Qed.
Lemma rtoks_len l : zlen (commas (map rtok l)) <= total l.
Proof.
  induction l as [|r l IH]; [cbn; lia|]. cbn [map total fold_right]. fold (total l). pose proof (rtok_len r).
  destruct l as [|q l]; [cbn [map commas total fold_right]; lia|]. cbn [map] in *.
  change (commas (rtok r :: rtok q :: map rtok l)) with (rtok r ++ [44] ++ commas (rtok q :: map rtok l)).
  rewrite !zlen_app. change (zlen [44]) with 1. lia.
Qed.
(** Printed ports read back *)
Lemma ports_back L t tr : qsort_ok (sort_nodes L) -> ports_of t tr -> total (ranges tr) <= 1024 ->
  exists t', parsePorts L (commas (map rtok (ranges tr))) = Ok (Some t') /\ forall v, inPorts (Some t') v = inPorts (Some t) v.
Proof.
  intros Q (R & RT & CN & FA & D & IP) L1. pose proof (rtoks_len (ranges tr)) as RL. pose proof (rtoks_facts _ FA) as RF.
  destruct (ports_exact L (commas (map rtok (ranges tr))) (ranges tr) Q) as (t' & E & H).
  { split; [lia|]. split; auto. exists (map rtok (ranges tr)). split.
    - apply pieces_commas; [cbn; auto|]. eapply Forall_impl; [|exact RF]. intros x (N & C). split; auto. intros c Hc K. apply C in Hc.
      destruct K as [<-|[<-|[]]]; lia.
    - clear - FA. induction FA as [|r l A F IH]; cbn [map]; constructor; auto. rewrite <- rtok_text. apply range_text_ok.
      destruct r as [f e], A as (A1 & A2 & A3). cbn in *. split; unfold is_u32, UINT_MAX; cbn; lia. }
  exists t'. split; auto. intros v. destruct (H v) as (b & -> & H1), (IP v) as (b' & -> & H2). f_equal.
  destruct b, b'; auto; [symmetry; apply H2, H1; auto|apply H1, H2; auto].
Qed.

(** ** Matches *)
Lemma print_items_total m : forall buf pos, 0 <= pos < zlen buf ->
  exists b rc, print_items m buf pos = Ok (b, rc) /\ 0 <= rc /\ (In 0 buf -> In 0 b).
Proof.
  induction m as [|i m IH]; intros buf pos P0; cbn [print_items]; [exists buf, 0; auto with zarith|].
  assert (X : exists buf1 pos1, (if (zlen buf - pos <? zlen buf) && (2 <? zlen buf - pos) then do b0 <- aset buf pos 44; Ok (b0, pos + 1) else Ok (buf, pos))
              = Ok (buf1, pos1) /\ 0 <= pos1 < zlen buf1).
  { destruct (_ && _) eqn:E.
    - rewrite aset_in_range by lia. cbn [obind]. do 2 eexists. split; [reflexivity|]. unfold zlen in *. rewrite zupd_length. lia.
    - do 2 eexists. split; [reflexivity|]. lia. }
  destruct X as (buf1 & pos1 & -> & P1). cbn [obind].
  destruct (snprintf_total buf1 pos1 (zlen buf1 - pos1) (item_text i)) as (b2 & -> & L2 & Z2); try lia.
  cbn [obind]. destruct (zlen buf1 - pos1 <=? zlen (item_text i)) eqn:E3; [exists b2, 1; auto with zarith|].
  pose proof (zlen_nonneg (item_text i)). destruct (IH b2 (pos1 + zlen (item_text i))) as (b & rc & -> & RC & I0); [lia|].
  exists b, rc. auto.
Qed.
Lemma matchString_total m buf : 0 < zlen buf -> exists b rc, matchString m buf = Ok (b, rc) /\ 0 <= rc /\ In 0 b.
Proof.
  intros L. unfold matchString. replace (zlen buf =? 0) with false by lia. rewrite aset_in_range by lia. cbn [obind].
  destruct (print_items_total m (zupd buf 0 0) 0) as (b & rc & -> & RC & I0); [unfold zlen in *; rewrite zupd_length; lia|].
  exists b, rc. split; auto. split; auto. apply I0. destruct buf; [cbn in L; lia|]. left. reflexivity.
Qed.
Lemma printMatch_safe P m : zlen (printbuf P) = 1024 -> exists s, printMatch P m = Ok s.
Proof.
  intros B. unfold printMatch. destruct (matchString_total m (printbuf P)) as (b & rc & -> & RC & I0); [lia|]. cbn [obind].
  replace (rc <? 0) with false by lia. destruct (strbuf_in b I0) as (s & ->). cbn [obind].
  destruct (strtok_r [44] s) as [[t rest]|]; [|eauto].
  destruct (toks_total [44; 32] (length rest) rest (le_n _)) as (l & ->). cbn [obind]. eauto.
Qed.

Lemma item_chars i : item_ok i -> Forall (fun c => 38 <= c <= 122 /\ c <> 44 /\ c <> 92) (item_text i).
Proof.
  intros (P & (N & O & L) & M & V). pose proof (header_size_bound (i_proto i)) as HB.
  assert (DC : forall v, is_u32 v -> Forall (fun c => 38 <= c <= 122 /\ c <> 44 /\ c <> 92) (dec v)).
  { intros v Hv. destruct (dec_ok v Hv) as (_ & F & _). eapply Forall_impl; [|exact F]. intros c Hc. cbv beta in *. lia. }
  assert (HC : forall v, is_u32 v -> Forall (fun c => 38 <= c <= 122 /\ c <> 44 /\ c <> 92) (hex v)).
  { intros v Hv. destruct (hex_ok v Hv) as ((_ & F & _) & _). eapply Forall_impl; [|exact F]. intros c Hc. cbv beta in *. lia. }
  assert (O' : is_u32 (i_offset i)) by (unfold is_u32, UINT_MAX; lia).
  assert (N' : is_u32 (i_nbytes i)) by (unfold is_u32, UINT_MAX; lia).
  assert (ST : forall l, forallb (fun c => (38 <=? c) && (c <=? 122) && negb (c =? 44) && negb (c =? 92)) l = true -> Forall (fun c => 38 <= c <= 122 /\ c <> 44 /\ c <> 92) l).
  { intros l Hl. rewrite forallb_forall in Hl. apply Forall_forall. intros c Hc. apply Hl in Hc. lia. }
  unfold item_text. rewrite !Forall_app. repeat apply conj; auto; try (apply ST; reflexivity).
  - apply ST. destruct P as [->|[->| ->]]; reflexivity.
  - destruct (i_mask i =? 0); [constructor|]. apply Forall_app. split; [apply ST; reflexivity|auto].
Qed.
Lemma item_len i : item_ok i -> 5 <= zlen (item_text i) <= 32.
Proof.
  intros K. split; [apply item_text_chars; auto|]. destruct K as (P & (N & O & L) & M & V). pose proof (header_size_bound (i_proto i)) as HB.
  destruct (hex_ok _ M) as (_ & LM). destruct (hex_ok _ V) as (_ & LV).
  assert (LO : zlen (dec (i_offset i)) <= 2) by (apply dec_len; [change (10 ^ 2) with 100; lia|lia]).
  assert (LN : zlen (dec (i_nbytes i)) <= 1) by (apply dec_len; [change (10 ^ 1) with 10; lia|lia]).
  assert (LP : (length (protostring (i_proto i)) <= 4)%nat) by (destruct P as [->|[->| ->]]; cbn; lia).
  unfold item_text, zlen in *. destruct (i_mask i =? 0); rewrite ?app_length; cbn [str length]; lia.
Qed.
Lemma commas_len m : Forall item_ok m -> zlen (commas (map item_text m)) <= Z.max 0 (33 * zlen m - 1).
Proof.
  induction 1 as [|i m Hi Hm IH]; [cbn; lia|]. pose proof (item_len i Hi). cbn [map].
  assert (zlen (i :: m) = 1 + zlen m) by (unfold zlen; cbn [length]; lia). pose proof (zlen_nonneg m).
  destruct m as [|j m]; [cbn [map commas]; lia|]. cbn [map] in *.
  change (commas (item_text i :: item_text j :: map item_text m)) with (item_text i ++ [44] ++ commas (item_text j :: map item_text m)).
  rewrite !zlen_app. change (zlen [44]) with 1. assert (0 < zlen (j :: m)) by (unfold zlen; cbn [length]; lia). lia.
Qed.
Lemma printMatch_exact P m : zlen (printbuf P) = 1024 -> Forall item_ok m -> zlen m <= 31 ->
  printMatch P m = Ok (printToks (map item_text m)).
Proof.
  intros B F L. unfold printMatch. destruct (matchString_ok m (printbuf P) F) as (b & rc & E & LB & H); [lia|].
  pose proof (commas_len m F) as CL.
  destruct H as [(H1 & -> & CS)|(H1 & _)]; [|lia]. rewrite E. cbn [obind]. change (0 <? 0) with false. cbv iota.
  pose proof (matchString_in _ (printbuf P) _ _ F ltac:(lia) E) as I0. destruct (strbuf_in b I0) as (s & ES). rewrite ES. cbn [obind].
  apply strbuf_cstring in ES. rewrite CS in ES. subst s.
  assert (FF : Forall (fun t => t <> [] /\ forall c, In c t -> ~ In c [44; 32]) (map item_text m)).
  { apply Forall_map. eapply Forall_impl; [|exact F]. intros i Hi. split.
    - pose proof (item_len i Hi). intros K. rewrite K in *. cbn in *. lia.
    - pose proof (item_chars i Hi) as IC. rewrite Forall_forall in IC. intros c Hc K. apply IC in Hc. destruct K as [<-|[<-|[]]]; lia. }
  destruct (map item_text m) as [|t l]; [reflexivity|]. inversion FF as [|? ? (T1 & T2) FF']; subst.
  assert (EC : commas (t :: l) = t ++ match l with [] => [] | _ => 44 :: commas l end) by (destruct l; [cbn; rewrite app_nil_r; auto|reflexivity]).
  rewrite EC, strtok_first; [|cbn; auto|auto|intros c Hc K; apply (T2 c Hc); destruct K as [<-|[]]; cbn; auto].
  rewrite (toks_exact _ _ l); [reflexivity|]. apply pieces_commas; [cbn; auto|auto].
Qed.
