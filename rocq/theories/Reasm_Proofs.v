(** Proofs about the reassembly tracker. *)
From Coq Require Import Lia ZArith Bool List.
From Verif Require Import Base Lists IpKey_Model IpKey_Spec IpKey_Proofs Reasm_Model Reasm_Spec.

(** ** Fuel and items *)
Lemma scan_fuel first last more : forall fuel del holes p,
  (2 * length holes + length p < fuel)%nat ->
  scan fuel first last more del holes p <> Fuel /\
  forall l p', scan fuel first last more del holes p = Ok (l, p') ->
    (length l + length p' = length holes + length p)%nat.
Proof.
  induction fuel as [|fuel IH]; intros del holes p HF; [lia|]. cbn [scan].
  destruct holes as [|[[hf hl]|] rest].
  - split; [discriminate|]. intros l p' H. assert (l = [] /\ p' = p) as (-> & ->) by (split; congruence). reflexivity.
  - cbn [length] in HF.
    assert (K : forall d c q, (2 * length rest + length q < fuel)%nat ->
      (do (l, p') <- scan fuel first last more d rest q; Ok (c :: l, p')) <> Fuel /\
      forall l p', (do (l, p') <- scan fuel first last more d rest q; Ok (c :: l, p')) = Ok (l, p') ->
        (length l + length p' = S (length rest) + length q)%nat).
    { intros d c q HQ. destruct (IH d rest q HQ) as (N & C).
      destruct (scan fuel first last more d rest q) as [[l1 p1]| | |]; cbn [obind]; split; try discriminate; try congruence.
      intros l p' H. assert (l = c :: l1 /\ p' = p1) as (-> & ->) by (split; congruence). cbn [length]. specialize (C l1 p1 eq_refl). lia. }
    assert (KD : forall d c, scan fuel first last more d rest (c :: p) <> Fuel /\
      forall l p', scan fuel first last more d rest (c :: p) = Ok (l, p') ->
        (length l + length p' = S (length rest) + length p)%nat).
    { intros d c. destruct (IH d rest (c :: p)) as (N & C); [cbn [length]; lia|]. split; auto.
      intros l p' H. specialize (C l p' H). cbn [length] in C. lia. }
    cbn [length]. destruct ((hl <? first) || (last <? hf)).
    + destruct del; [apply KD|apply K; lia].
    + destruct ((last <? hl) && more).
      * destruct (negb (negb (hf <? first))).
        -- destruct p as [|new p1]; [split; discriminate|]. cbn [length] in *.
           destruct (IH false (new :: rest) p1) as (N & C); [cbn [length]; lia|].
           destruct (scan fuel first last more false (new :: rest) p1) as [[l1 p2]| | |]; cbn [obind]; split; try discriminate; try congruence.
           intros l p' H. assert (l = Some (u32 (last + 1), hl) :: l1 /\ p' = p2) as (-> & ->) by (split; congruence).
           specialize (C l1 p2 eq_refl). cbn [length] in *. lia.
        -- apply K; lia.
      * destruct (negb (hf <? first)); [apply KD|apply K; lia].
  - split; discriminate.
Qed.

Lemma handle_items t first len more p :
  handleFragment t first len more p <> Fuel /\
  forall r t' p', handleFragment t first len more p = Ok (r, t', p') ->
    zlen (t_holes t') + zlen p' = zlen (t_holes t) + zlen p.
Proof.
  unfold handleFragment. destruct (len =? 0).
  { split; [discriminate|]. intros r t' p' H. assert (t' = t /\ p' = p) as (-> & ->) by (split; congruence). auto. }
  destruct (scan_fuel first (u32 (u32 (first + len) - 1)) more (S (2 * length (t_holes t) + length p)) false (t_holes t) p) as (N & C); [lia|].
  set (x := scan _ _ _ _ _ _ _) in *. clearbody x. cbv zeta.
  destruct x as [[l p1]| | |]; cbn [obind]; split; try discriminate; try congruence.
  intros r t' p' H. assert (t' = mkT (t_head t) l /\ p' = p1) as (-> & ->) by (split; congruence).
  specialize (C l p1 eq_refl). cbn [t_holes]. unfold zlen. lia.
Qed.

Lemma new_items p t p' : raNew p = (t, p') ->
  zlen p' + match t with None => 0 | Some t => 1 + zlen (t_holes t) end = zlen p.
Proof.
  unfold raNew. destruct p as [|a [|b p]]; intros H.
  - assert (t = None /\ p' = []) as (-> & ->) by (split; congruence). reflexivity.
  - assert (t = None /\ p' = [Some (0, INF)]) as (-> & ->) by (split; congruence). reflexivity.
  - assert (t = Some (mkT b [Some (0, INF)]) /\ p' = p) as (-> & ->) by (split; congruence).
    cbn [t_holes]. unfold zlen. cbn [length]. lia.
Qed.

Lemma used_app a b : used (a ++ b) = used a + used b.
Proof. unfold used. induction a as [|x a IH]; cbn in *; lia. Qed.
Lemma used_set ts i t : forall t0, nth i ts None = Some t0 ->
  used (set_nth ts i t) = used ts - (1 + zlen (t_holes t0)) + match t with None => 0 | Some t => 1 + zlen (t_holes t) end.
Proof.
  unfold used. revert i. induction ts as [|x ts IH]; intros [|i] t0 H; cbn [nth set_nth map fold_right] in *; try discriminate.
  - rewrite H. lia.
  - rewrite (IH i t0 H). lia.
Qed.

Lemma step_items p ts o p' ts' r : step (p, ts) o = Ok ((p', ts'), r) -> zlen p' + used ts' = zlen p + used ts.
Proof.
  destruct o as [|i f|i]; cbn [step].
  - destruct (raNew p) as [t q] eqn:E. intros H. assert (p' = q /\ ts' = ts ++ [t]) as (-> & ->) by (split; congruence).
    apply new_items in E. rewrite used_app. unfold used at 2. cbn [map fold_right]. lia.
  - destruct (nth i ts None) as [t|] eqn:E.
    + destruct (handleFragment t (fr_first f) (fr_len f) (fr_more f) p) as [[[r1 t1] q]| | |] eqn:EH; cbn [obind]; try discriminate.
      intros H. assert (p' = q /\ ts' = set_nth ts i (Some t1)) as (-> & ->) by (split; congruence).
      apply handle_items in EH. rewrite (used_set _ _ _ _ E). lia.
    + intros H. assert (p' = p /\ ts' = ts) as (-> & ->) by (split; congruence). auto.
  - destruct (nth i ts None) as [t|] eqn:E.
    + intros H. assert (p' = raDestroy t p /\ ts' = set_nth ts i None) as (-> & ->) by (split; congruence).
      rewrite (used_set _ _ _ _ E). unfold raDestroy, zlen. rewrite app_length, rev_length. cbn [length]. lia.
    + intros H. assert (p' = p /\ ts' = ts) as (-> & ->) by (split; congruence). auto.
Qed.

Lemma rrun_items ops : forall p ts p' ts' l, rrun (p, ts) ops = Ok ((p', ts'), l) ->
  zlen p' + used ts' = zlen p + used ts.
Proof.
  induction ops as [|o ops IH]; intros p ts p' ts' l; cbn [rrun].
  - intros H. assert (p' = p /\ ts' = ts) as (-> & ->) by (split; congruence). auto.
  - destruct (step (p, ts) o) as [[[p1 ts1] r]| | |] eqn:ES; cbn [obind]; try discriminate.
    destruct (rrun (p1, ts1) ops) as [[[p2 ts2] l2]| | |] eqn:ER; cbn [obind]; try discriminate.
    intros H. assert (p' = p2 /\ ts' = ts2) as (-> & ->) by (split; congruence).
    apply IH in ER. apply step_items in ES. lia.
Qed.

Lemma rrun_fuel ops : forall s, rrun s ops <> Fuel.
Proof.
  induction ops as [|o ops IH]; intros s; cbn [rrun]; [discriminate|].
  assert (N : step s o <> Fuel).
  { destruct s as [p ts]. destruct o as [|i f|i]; cbn [step].
    - destruct (raNew p). discriminate.
    - destruct (nth i ts None) as [t|]; [|discriminate].
      pose proof (proj1 (handle_items t (fr_first f) (fr_len f) (fr_more f) p)) as N.
      destruct (handleFragment _ _ _ _ _) as [[[? ?] ?]| | |]; cbn [obind]; try discriminate. congruence.
    - destruct (nth i ts None); discriminate. }
  destruct (step s o) as [[s' r]| | |]; cbn [obind]; try discriminate; [|congruence].
  specialize (IH s'). destruct (rrun s' ops) as [[? ?]| | |]; cbn [obind]; try discriminate. congruence.
Qed.

(** Nothing is lost when all trackers are destroyed. *)
Lemma conserved size ops p ts l : rrun (createReassembler size, []) ops = Ok ((p, ts), l) ->
  zlen p + used ts = Z.of_nat size.
Proof.
  intros H. apply rrun_items in H. unfold createReassembler, zlen in H. rewrite repeat_length in H. cbn in H. unfold zlen. lia.
Qed.

(** ** Decidability *)
Definition receivedb (fs : list frag) (b : Z) : bool :=
  existsb (fun f => (fr_first f <=? b) && (b <? fr_end f)) fs.
Lemma receivedb_ok fs b : receivedb fs b = true <-> received fs b.
Proof.
  unfold receivedb, received. rewrite existsb_exists. split; intros (f & I & H); exists f; split; auto; lia.
Qed.
Lemma received_dec fs b : received fs b \/ ~ received fs b.
Proof. destruct (receivedb fs b) eqn:E; [left|right]; rewrite <- receivedb_ok; congruence. Qed.
Lemma last_dec fs : (exists l, In l fs /\ fr_more l = false) \/ (forall l, In l fs -> fr_more l = true).
Proof.
  induction fs as [|f fs IH]; [right; intros l []|].
  destruct (fr_more f) eqn:E.
  - destruct IH as [(l & I & M)|IH]; [left; exists l; split; [right|]; auto|right].
    intros l [<-|I]; auto.
  - left. exists f. split; [left|]; auto.
Qed.

Lemma received_app fs f b : received (fs ++ [f]) b <-> received fs b \/ fr_first f <= b < fr_end f.
Proof.
  unfold received. split.
  - intros (g & I & H). apply in_app_iff in I. destruct I as [I|[<-|[]]]; [left; eauto|right; auto].
  - intros [(g & I & H)|H]; [exists g|exists f]; (split; [apply in_app_iff; cbn; auto|auto]).
Qed.

Lemma missing_app n fs f b : Forall (of_datagram n) (fs ++ [f]) ->
  (missing (fs ++ [f]) b <-> missing fs b /\ ~ (fr_first f <= b < fr_end f) /\ (fr_more f = false -> b < fr_first f)).
Proof.
  intros D. apply Forall_app in D. destruct D as (D & Df). inversion Df as [|? ? (F1 & F2 & F3 & F4) _]; subst.
  unfold missing. rewrite received_app. split.
  - intros (B & R & L). split; [split; [auto|split; [tauto|intros l I; apply L; apply in_app_iff; auto]]|].
    split; [tauto|]. intros M. specialize (L f). unfold fr_end in *.
    assert (b < fr_first f + fr_len f) by (apply L; auto; apply in_app_iff; cbn; auto). assert (~ (fr_first f <= b < fr_first f + fr_len f)) by tauto. lia.
  - intros ((B & R & L) & N & M). split; auto. split; [tauto|]. intros l I ML. apply in_app_iff in I.
    destruct I as [I|[<-|[]]]; auto. unfold fr_end. specialize (M ML). lia.
Qed.

(** Nothing is missing iff complete. *)
Lemma complete_missing n fs : n <= INF -> Forall (of_datagram n) fs ->
  (complete fs <-> forall b, b <= INF -> ~ missing fs b).
Proof.
  intros HN D. rewrite Forall_forall in D. split.
  - intros (l & I & M & R) b _ (B & NR & L). apply NR, R. split; auto.
  - intros NM. destruct (last_dec fs) as [(l & I & M)|N].
    + exists l. split; auto. split; auto. intros b B. destruct (received_dec fs b) as [|NR]; auto. exfalso.
      destruct (D l I) as (D1 & D2 & D3 & D4). apply D4 in M. 
      apply (NM b); [lia|]. split; [lia|]. split; auto. intros l' I' M'. destruct (D l' I') as (E1 & E2 & E3 & E4). apply E4 in M'. lia.
    + exfalso. apply (NM INF); [lia|]. split; [discriminate|]. split.
      * intros (f & I & F). destruct (D f I) as (D1 & D2 & D3 & D4). lia.
      * intros l I M. rewrite (N l I) in M. discriminate.
Qed.

(** ** No splits: at most one hole *)
Definition one_hole (fs : list frag) (l : list item) : Prop :=
  (l = [] /\ forall b, b <= INF -> ~ missing fs b) \/
  (exists lo hi, l = [Some (lo, hi)] /\ 0 <= lo <= hi /\ hi <= INF /\
     forall b, b <= INF -> (missing fs b <-> lo <= b <= hi)).

Lemma scan_one fuel first last more lo hi p :
  scan (S (S (S fuel))) first last more false [Some (lo, hi)] p =
  if (hi <? first) || (last <? lo) then Ok ([Some (lo, hi)], p)
  else if lo <? first then
    if (last <? hi) && more then
      match p with [] => UB | new :: p' => do (l, p'') <- scan (S (S fuel)) first last more false [new] p'; Ok (Some (u32 (last + 1), hi) :: l, p'') end
    else Ok ([Some (lo, u32 (first - 1))], p)
  else if (last <? hi) && more then Ok ([Some (u32 (last + 1), hi)], p)
  else Ok ([], Some (lo, hi) :: p).
Proof.
  cbn [scan]. destruct ((hi <? first) || (last <? lo)); [reflexivity|].
  destruct (lo <? first); cbn [negb]; destruct ((last <? hi) && more); try reflexivity.
Qed.

Lemma hole_low n fs lo hi : 1 <= n -> n <= INF -> Forall (of_datagram n) fs -> lo <= hi -> hi <= INF ->
  (forall b, b <= INF -> (missing fs b <-> lo <= b <= hi)) -> lo < n.
Proof.
  intros H1 HN D LH HI HM. rewrite Forall_forall in D. destruct (last_dec fs) as [(l & I & M)|N].
  - assert (X : missing fs lo) by (apply HM; lia). destruct X as (_ & _ & L). specialize (L l I M).
    destruct (D l I) as (_ & _ & E & _). lia.
  - assert (X : missing fs (n - 1)).
    { split; [lia|]. split.
      - intros (f & I & F). destruct (D f I) as (D1 & D2 & D3 & D4). assert (fr_end f = n) by lia.
        apply D4 in H. rewrite (N f I) in H. discriminate.
      - intros l I M. rewrite (N l I) in M. discriminate. }
    apply HM in X; lia.
Qed.

Lemma one_step n fs f t p : n <= INF -> Forall (of_datagram n) (fs ++ [f]) -> ~ splits fs f ->
  one_hole fs (t_holes t) ->
  exists r t' p', handleFragment t (fr_first f) (fr_len f) (fr_more f) p = Ok (r, t', p') /\
    one_hole (fs ++ [f]) (t_holes t') /\ r = match t_holes t' with [] => 0 | _ => 1 end.
Proof.
  intros HN D NS OH. pose proof (missing_app n fs f) as MA.
  assert (MB : forall b, missing (fs ++ [f]) b <-> missing fs b /\ ~ (fr_first f <= b < fr_end f) /\ (fr_more f = false -> b < fr_first f)) by (intros b; apply MA; auto).
  clear MA. pose proof D as D'. apply Forall_app in D'. destruct D' as (D1 & D2). inversion D2 as [|? ? (F1 & F2 & F3 & F4) _]; subst.
  pose proof (fun lo hi => hole_low n fs lo hi) as HL.
  unfold handleFragment, fr_end in *. unfold INF, UINT_MAX in *. replace (fr_len f =? 0) with false by lia.
  assert (EL : u32 (u32 (fr_first f + fr_len f) - 1) = fr_first f + fr_len f - 1).
  { unfold u32, two32. rewrite (Z.mod_small (fr_first f + fr_len f)) by lia. rewrite Z.mod_small; lia. }
  cbv zeta. rewrite EL. destruct OH as [(EH & NM)|(lo & hi & EH & H1 & H2 & HM)]; rewrite EH.
  - cbn [scan length]. exists 0, (mkT (t_head t) []), p. split; [reflexivity|]. split; [|reflexivity]. left. split; auto.
    intros b B M. apply MB in M. apply (NM b B). tauto.
  - change (S (2 * length [Some (lo, hi)] + length p)) with (S (S (S (length p)))). rewrite scan_one.
    assert (LN : lo < n) by (apply (HL lo hi); auto; unfold INF, UINT_MAX in *; lia).
    unfold one_hole, INF, UINT_MAX in *.
    destruct ((hi <? fr_first f) || (fr_first f + fr_len f - 1 <? lo)) eqn:E1; cbn [obind].
    { do 3 eexists. split; [reflexivity|]. split; [|reflexivity]. right. exists lo, hi. split; auto. split; auto. split; auto.
      intros b B. rewrite MB, (HM b B). split; [tauto|]. intros X. split; auto. split; [lia|]. intros M. apply F4 in M. lia. }
    destruct (lo <? fr_first f) eqn:E2.
    + destruct ((fr_first f + fr_len f - 1 <? hi) && fr_more f) eqn:E3.
      { exfalso. apply NS. split; [lia|]. exists lo, hi. rewrite (HM lo), (HM hi) by lia. unfold fr_end. lia. }
      cbn [obind]. do 3 eexists. split; [reflexivity|]. split; [|reflexivity]. right. exists lo, (fr_first f - 1).
      cbn [t_holes]. split; [unfold u32, two32; rewrite Z.mod_small by lia; auto|]. split; [lia|]. split; [lia|].
      intros b B. rewrite MB, (HM b B). split.
      * intros (X & Y & Z). split; [lia|]. destruct (fr_more f); [|specialize (Z eq_refl); lia]. lia.
      * intros X. split; [lia|]. split; [lia|]. lia.
    + destruct ((fr_first f + fr_len f - 1 <? hi) && fr_more f) eqn:E3; cbn [obind].
      * do 3 eexists. split; [reflexivity|]. split; [|reflexivity]. right. exists (fr_first f + fr_len f), hi. cbn [t_holes].
        split; [unfold u32, two32; rewrite Z.mod_small by lia; do 3 f_equal; lia|]. split; [lia|]. split; [lia|].
        intros b B. rewrite MB, (HM b B). split; [lia|]. intros X. split; [lia|]. split; [lia|]. intros M. rewrite M in E3. lia.
      * do 3 eexists. split; [reflexivity|]. split; [|reflexivity]. left. split; [reflexivity|].
        intros b B M. apply MB in M. destruct M as (M & N1 & N2). apply (HM b B) in M.
        destruct (fr_more f); [|specialize (N2 eq_refl)]; lia.
Qed.

Lemma tracked_one n fs t : n <= INF -> tracked fs t -> Forall (of_datagram n) fs -> no_splits fs -> one_hole fs (t_holes t).
Proof.
  intros HN. induction 1 as [p t p' E|fs t f p r t' p' HT IH E]; intros D NS.
  - unfold raNew in E. destruct p as [|a [|b p]]; try discriminate.
    assert (t = mkT b [Some (0, INF)]) as -> by congruence. cbn [t_holes]. right. exists 0, INF. split; auto.
    split; [unfold INF, UINT_MAX; lia|]. split; [lia|]. intros b' B. split; [intros (X & _); lia|].
    intros X. split; [lia|]. split; [intros (g & [] & _)|intros l []].
  - assert (D1 : Forall (of_datagram n) fs) by (apply Forall_app in D; tauto).
    assert (N1 : no_splits fs).
    { intros a g b EQ. apply (NS a g (b ++ [f])). rewrite EQ, <- app_assoc. reflexivity. }
    destruct (one_step n fs f t p HN D) as (r1 & t1 & p1 & E1 & O & _); auto.
    { apply (NS fs f []). auto. }
    rewrite E in E1. assert (t' = t1) as -> by congruence. auto.
Qed.

(** C27, without splits *)
Lemma completion n fs t f p : n <= INF -> tracked fs t -> Forall (of_datagram n) (fs ++ [f]) -> no_splits (fs ++ [f]) ->
  exists r t' p', handleFragment t (fr_first f) (fr_len f) (fr_more f) p = Ok (r, t', p') /\
    (r = 0 \/ r = 1) /\ (r = 0 <-> complete (fs ++ [f])).
Proof.
  intros HN HT D NS.
  assert (D1 : Forall (of_datagram n) fs) by (apply Forall_app in D; tauto).
  assert (N1 : no_splits fs).
  { intros a g b EQ. apply (NS a g (b ++ [f])). rewrite EQ, <- app_assoc. reflexivity. }
  destruct (one_step n fs f t p HN D) as (r1 & t1 & p1 & E1 & O & R); auto.
  { apply (NS fs f []). auto. }
  { apply (tracked_one n); auto. }
  exists r1, t1, p1. split; auto. split; [destruct (t_holes t1); auto|].
  rewrite (complete_missing n) by auto. destruct O as [(E & M)|(lo & hi & E & H1 & H2 & HM)]; rewrite E in R; subst r1.
  - split; auto.
  - split; [discriminate|]. intros NM. exfalso. apply (NM lo); [lia|]. apply HM; lia.
Qed.

(** ** Splits *)

(** A fragment that is neither first nor last, arriving first, makes the
    tracker forget the bytes before it and take over whatever is found in a
    free item. *)
Lemma first_split p0 t p0' first len d p : raNew p0 = (Some t, p0') -> 0 < first -> 1 <= len -> first + len <= INF ->
  handleFragment t first len true [] = UB /\
  handleFragment t first len true (None :: p) = UB /\
  (snd d < first \/ first + len <= fst d ->
   handleFragment t first len true (Some d :: p) = Ok (1, mkT (t_head t) [Some (first + len, INF); Some d], p)).
Proof.
  intros E F L SZ. unfold raNew in E. destruct p0 as [|a [|b q]]; try discriminate.
  assert (t = mkT b [Some (0, INF)]) as -> by congruence. clear E.
  unfold handleFragment. replace (len =? 0) with false by lia. unfold INF, UINT_MAX in *.
  assert (EL : u32 (u32 (first + len) - 1) = first + len - 1).
  { unfold u32, two32. rewrite (Z.mod_small (first + len)) by lia. rewrite Z.mod_small; lia. }
  cbv zeta. rewrite EL. cbn [t_holes t_head].
  assert (K : forall q, scan (S (2 * length [Some (0, 4294967295)] + length q)) first (first + len - 1) true false [Some (0, 4294967295)] q =
    match q with [] => UB | new :: p' => do (l, p'') <- scan (S (S (length q))) first (first + len - 1) true false [new] p'; Ok (Some (first + len, 4294967295) :: l, p'') end).
  { intros q1. change (S (2 * length [Some (0, 4294967295)] + length q1)) with (S (S (S (length q1)))). rewrite scan_one.
    replace ((4294967295 <? first) || (first + len - 1 <? 0)) with false by lia.
    replace (0 <? first) with true by lia. replace ((first + len - 1 <? 4294967295) && true) with true by lia.
    unfold u32 at 1, two32 at 1. rewrite Z.mod_small by lia. replace (first + len - 1 + 1) with (first + len) by lia. reflexivity. }
  rewrite !K. split; [reflexivity|]. split; [reflexivity|]. intros N. cbn [length scan]. destruct d as [dl dh]. cbn in N.
  replace ((dh <? first) || (first + len - 1 <? dl)) with true by lia. cbn [obind scan]. reflexivity.
Qed.

Definition ex_early : list rop :=
  [RNew; RNew; RFrag 1 (mkFrag 8 8 false); RFrag 1 (mkFrag 0 8 true);
   RFrag 0 (mkFrag 100 100 true); RFrag 0 (mkFrag 200 100 false)].
Lemma early k : exists s, rrun (createReassembler (5 + k), []) ex_early = Ok (s, [0; 0; 1; 0; 1; 0]).
Proof.
  unfold createReassembler. cbn [repeat Nat.add]. eexists. unfold ex_early. cbn [rrun step raNew obind app nth]. 
  unfold handleFragment.
  cbn [fr_first fr_len fr_more t_holes t_head]. vm_compute. reflexivity.
Qed.

(** ** Packets *)
Lemma byte_check (P : Z -> bool) : forallb P (map Z.of_nat (seq 0 256)) = true -> forall b, 0 <= b < 256 -> P b = true.
Proof.
  intros H b B. rewrite forallb_forall in H. apply H. apply in_map_iff. exists (Z.to_nat b). split; [lia|].
  apply in_seq. lia.
Qed.
Lemma bytes_check (P : Z -> Z -> bool) :
  forallb (fun a => forallb (P a) (map Z.of_nat (seq 0 256))) (map Z.of_nat (seq 0 256)) = true ->
  forall a b, 0 <= a < 256 -> 0 <= b < 256 -> P a b = true.
Proof.
  intros H a b A B. apply (byte_check (P a)); auto. apply (byte_check _ H a A).
Qed.
Lemma version4 b : 64 <= b < 80 -> Z.land b 240 = 64 /\ Z.land b 15 = b - 64.
Proof.
  intros B. pose proof (byte_check (fun b => negb ((64 <=? b) && (b <? 80)) || ((Z.land b 240 =? 64) && (Z.land b 15 =? b - 64)))
    ltac:(vm_compute; reflexivity) b) as H. cbv beta in H. lia.
Qed.
Lemma version6 b : 96 <= b < 112 -> Z.land b 240 = 96.
Proof.
  intros B. pose proof (byte_check (fun b => negb ((96 <=? b) && (b <? 112)) || (Z.land b 240 =? 96))
    ltac:(vm_compute; reflexivity) b) as H. cbv beta in H. lia.
Qed.
Lemma offset4 hi lo : 0 <= hi < 256 -> 0 <= lo < 256 ->
  Z.land (hi * 256 + lo) 8191 = 256 * (hi mod 32) + lo /\ negb (Z.land (hi * 256 + lo) 8192 =? 0) = Z.testbit hi 5.
Proof.
  intros A B. pose proof (bytes_check (fun hi lo => (Z.land (hi * 256 + lo) 8191 =? 256 * (hi mod 32) + lo) &&
    eqb (negb (Z.land (hi * 256 + lo) 8192 =? 0)) (Z.testbit hi 5)) ltac:(vm_compute; reflexivity) hi lo A B) as H. cbv beta in H.
  apply andb_prop in H. destruct H as (H1 & H2). apply eqb_prop in H2. split; [lia|auto].
Qed.
Lemma offset6 hi lo : 0 <= hi < 256 -> 0 <= lo < 256 ->
  Z.land (hi * 256 + lo) 65528 = 8 * ((256 * hi + lo) / 8) /\ negb (Z.land (hi * 256 + lo) 1 =? 0) = Z.testbit lo 0.
Proof.
  intros A B. pose proof (bytes_check (fun hi lo => (Z.land (hi * 256 + lo) 65528 =? 8 * ((256 * hi + lo) / 8)) &&
    eqb (negb (Z.land (hi * 256 + lo) 1 =? 0)) (Z.testbit lo 0)) ltac:(vm_compute; reflexivity) hi lo A B) as H. cbv beta in H.
  apply andb_prop in H. destruct H as (H1 & H2). apply eqb_prop in H2. split; [lia|auto].
Qed.

Lemma read_frag data f t p : frag_packet data f ->
  raHandleFragment t data p = handleFragment t (fr_first f) (fr_len f) (fr_more f) p.
Proof.
  intros (HZ & [(b0 & l1 & l2 & hl & mf & fo & A0 & B0 & -> & Z1 & Z2 & A2 & EL & (hi & lo & A6 & Hhi & Hlo & -> & ->) & ->)|
                (b0 & hi & lo & A0 & B0 & A6 & Z1 & A42 & Hhi & Hlo & ->)]);
    unfold raHandleFragment; rewrite (at_aget _ _ _ A0); cbn [obind fr_first fr_len fr_more].
  - destruct (version4 b0 B0) as (-> & ->). change (64 =? 64) with true. cbv iota.
    unfold in_bounds. replace (0 + 20 <? zlen data) with true by lia. cbn [negb].
    rewrite (rdn_at_n _ _ 2 _ A2 eq_refl). cbn [obind]. change (be16 [l1; l2]) with (l1 * 256 + l2).
    replace (zlen data =? l1 * 256 + l2) with true by lia. cbn [negb].
    change (0 + 6) with 6 in A6. rewrite (rdn_at_n _ _ 2 _ A6 eq_refl). cbn [obind]. change (be16 [hi; lo]) with (hi * 256 + lo). cbv zeta.
    destruct (offset4 hi lo Hhi Hlo) as (-> & ->). f_equal; [lia|].
    unfold u32, two32. apply Z.mod_small. lia.
  - rewrite (version6 b0 B0). change (96 =? 64) with false. change (96 =? 96) with true. cbv iota.
    rewrite (at_aget _ _ _ A6). cbn [obind ra6]. change (is_ext 44 && negb (44 =? 44)) with false. change (44 =? 44) with true. cbv iota.
    unfold in_bounds. replace (40 + 8 <? zlen data) with true by lia. cbn [negb].
    change (40 + 2) with 42. rewrite (rdn_at_n _ _ 2 _ A42 eq_refl). cbn [obind]. change (be16 [hi; lo]) with (hi * 256 + lo). cbv zeta.
    destruct (offset6 hi lo Hhi Hlo) as (-> & ->). f_equal.
    unfold u32, two32. rewrite Z.mod_small; lia.
Qed.

(** Reading a packet does not go wrong. *)
Definition handles (t : tracker) (p : pool) (o : outcome (Z * tracker * pool)) : Prop :=
  (exists first len more, o = handleFragment t first len more p) \/ exists r, r <> 0 /\ o = Ok (r, t, p).
Lemma aget_ok (data : list Z) i : 0 <= i < zlen data -> exists v, aget data i = Ok v /\ In v data.
Proof.
  intros H. destruct (at_exists data i 1) as [l [A B]]; [lia|lia|]. destruct l as [|v [|]]; try discriminate.
  exists v. split; [apply (at_aget _ _ _ A)|]. destruct A as (_ & _ & E). cbn in E.
  rewrite <- (firstn_skipn (Z.to_nat i) data). apply in_app_iff. right.
  destruct (skipn (Z.to_nat i) data) as [|x y]; [discriminate|]. assert (x = v) as -> by (cbn in E; congruence). left. auto.
Qed.
Lemma ra6_ok t data p : Forall (fun b => 0 <= b < 256) data -> forall fuel htype hdr, (1 <= fuel)%nat -> 0 <= hdr ->
  zlen data <= hdr + 8 * Z.of_nat fuel - 8 -> handles t p (ra6 fuel t data htype hdr p).
Proof.
  intros BY. rewrite Forall_forall in BY. induction fuel as [|fuel IH]; intros htype hdr H1 H0 HF; cbn [ra6]; [lia|].
  unfold in_bounds. destruct (is_ext htype && negb (htype =? 44)).
  - destruct (hdr + 2 <? zlen data) eqn:E; cbn [negb]; [|right; eexists; split; [|reflexivity]; discriminate].
    destruct (aget_ok data hdr) as (n & -> & _); [lia|]. cbn [obind].
    destruct (aget_ok data (hdr + 1)) as (l & -> & I); [lia|]. cbn [obind]. apply BY in I.
    destruct (l =? 0) eqn:EL; [right; eexists; split; [|reflexivity]; discriminate|]. apply IH; lia.
  - destruct (htype =? 44); [|right; eexists; split; [|reflexivity]; discriminate].
    destruct (hdr + 8 <? zlen data) eqn:E; cbn [negb]; [|right; eexists; split; [|reflexivity]; discriminate].
    destruct (at_exists data (hdr + 2) 2) as [w [A B]]; [lia|lia|]. rewrite (rdn_at_n _ _ 2 _ A B). cbn [obind]. left. eauto.
Qed.
Lemma reading t data p : Forall (fun b => 0 <= b < 256) data -> 7 <= zlen data -> handles t p (raHandleFragment t data p).
Proof.
  intros BY L. unfold raHandleFragment, in_bounds. destruct (aget_ok data 0) as (b & -> & _); [lia|]. cbn [obind].
  destruct (Z.land b 240 =? 64).
  - destruct (0 + 20 <? zlen data) eqn:E; cbn [negb]; [|right; eexists; split; [|reflexivity]; discriminate].
    destruct (at_exists data 2 2) as [w [A B]]; [lia|lia|]. rewrite (rdn_at_n _ _ 2 _ A B). cbn [obind].
    destruct (zlen data =? be16 w); cbn [negb]; [|right; eexists; split; [|reflexivity]; discriminate].
    destruct (at_exists data 6 2) as [v [A' B']]; [lia|lia|]. rewrite (rdn_at_n _ _ 2 _ A' B'). cbn [obind]. left. eauto.
  - destruct (Z.land b 240 =? 96); [|right; eexists; split; [|reflexivity]; discriminate].
    destruct (aget_ok data 6) as (n & -> & _); [lia|]. cbn [obind]. apply ra6_ok; auto; unfold zlen in *; lia.
Qed.

(** A packet is handled without going wrong, and without changing the number
    of items, unless the pool runs out or has items that were never used. *)
Lemma packets_ok n fs t f data p : n <= INF -> tracked fs t -> frag_packet data f ->
  Forall (of_datagram n) (fs ++ [f]) -> no_splits (fs ++ [f]) ->
  exists r t' p', raHandleFragment t data p = Ok (r, t', p') /\ (r = 0 \/ r = 1) /\ (r = 0 <-> complete (fs ++ [f])).
Proof. intros HN HT HP D NS. rewrite (read_frag data f t p HP). apply (completion n); auto. Qed.

(** ** Enough items *)
Lemma scan_enough first last more : first <= last -> forall fuel del holes p,
  (2 * length holes + length p < fuel)%nat -> written holes -> written p ->
  count_around first last holes + count_around first last p <= zlen p ->
  exists l p', scan fuel first last more del holes p = Ok (l, p') /\ written l /\ written p'.
Proof.
  intros FL. unfold count_around, written. induction fuel as [|fuel IH]; intros del holes p HF WH WP HC; [lia|]. cbn [scan].
  destruct holes as [|[[hf hl]|] rest].
  - do 2 eexists. split; [reflexivity|auto].
  - inversion WH as [|? ? _ WR]; subst. cbn [length] in HF.
    assert (K : forall d c q, (2 * length rest + length q < fuel)%nat -> Forall (fun i => i <> None) q -> c <> None ->
      zlen (filter (around first last) rest) + zlen (filter (around first last) q) <= zlen q ->
      exists l p', (do (l, p') <- scan fuel first last more d rest q; Ok (c :: l, p')) = Ok (l, p') /\
        Forall (fun i => i <> None) l /\ Forall (fun i => i <> None) p').
    { intros d c q HQ WQ NC CQ. destruct (IH d rest q HQ WR WQ CQ) as (l & p' & -> & WL & WP'). cbn [obind].
      do 2 eexists. split; [reflexivity|]. auto. }
    assert (AR : around first last (Some (hf, hl)) = (hf <? first) && (last <? hl)) by reflexivity.
    cbn [filter] in HC. rewrite AR in HC.
    assert (CR : zlen (filter (around first last) rest) + zlen (filter (around first last) p) <= zlen p).
    { destruct ((hf <? first) && (last <? hl)); unfold zlen in *; cbn [length] in *; lia. }
    assert (PU : forall c, around first last c = false -> zlen (filter (around first last) rest) + zlen (filter (around first last) (c :: p)) <= zlen (c :: p)).
    { intros c EC. cbn [filter]. rewrite EC. unfold zlen in *. cbn [length]. lia. }
    destruct ((hl <? first) || (last <? hf)) eqn:E1.
    + destruct del; [|apply K; auto; [lia|discriminate]]. apply IH; auto; [cbn [length]; lia|constructor; auto; discriminate|].
      apply PU. rewrite AR. lia.
    + destruct ((last <? hl) && more) eqn:E2.
      * destruct (negb (negb (hf <? first))) eqn:E3.
        -- replace ((hf <? first) && (last <? hl)) with true in HC by lia.
           destruct p as [|new p1]; [unfold zlen in HC; cbn [length filter] in HC; lia|].
           inversion WP as [|? ? WN WP1]; subst.
           destruct (IH false (new :: rest) p1) as (l & p' & -> & WL & WP'); auto.
           { cbn [length] in *. lia. }
           { cbn [filter] in HC |- *. destruct (around first last new); unfold zlen in *; cbn [length] in *; lia. }
           cbn [obind]. do 2 eexists. split; [reflexivity|]. split; auto. constructor; auto. discriminate.
        -- apply K; auto; [lia|discriminate].
      * destruct (negb (hf <? first)) eqn:E3.
        -- apply IH; auto; [cbn [length]; lia|constructor; auto; discriminate|]. apply PU.
           replace (hf <? first) with false by lia. rewrite AR. lia.
        -- apply K; auto; [lia|]. destruct (hf <? first); discriminate.
  - inversion WH. congruence.
Qed.

Lemma enough t first len more p : 0 <= first -> 1 <= len -> first + len <= UINT_MAX ->
  written (t_holes t) -> written p ->
  count_around first (first + len - 1) (t_holes t) + count_around first (first + len - 1) p <= zlen p ->
  exists r t' p', handleFragment t first len more p = Ok (r, t', p') /\ written (t_holes t') /\ written p'.
Proof.
  intros H0 H1 H2 WT WP C. unfold handleFragment. replace (len =? 0) with false by lia. cbv zeta.
  assert (EL : u32 (u32 (first + len) - 1) = first + len - 1).
  { unfold u32, two32, UINT_MAX in *. rewrite (Z.mod_small (first + len)) by lia. rewrite Z.mod_small; lia. }
  rewrite EL. destruct (scan_enough first (first + len - 1) more) with (fuel := S (2 * length (t_holes t) + length p)) (del := false) (holes := t_holes t) (p := p)
    as (l & p' & -> & WL & WP'); auto; try lia. cbn [obind]. do 3 eexists. split; [reflexivity|]. auto.
Qed.

(** ** IPv6 fragments behind another extension header *)
Lemma ext_type nxt : nxt = 0 \/ nxt = 43 \/ nxt = 60 -> is_ext nxt && negb (nxt =? 44) = true.
Proof. intros [->|[->| ->]]; reflexivity. Qed.
Lemma skipn_tl (l : list Z) : forall n, skipn (S n) l = tl (skipn n l).
Proof. induction l as [|x l IH]; intros [|n]; try reflexivity. rewrite skipn_cons. rewrite IH. reflexivity. Qed.
Lemma ext_read data l f t p : ext_packet data l f -> l = 0 /\ raHandleFragment t data p = Ok (-1, t, p) \/
  l <> 0 /\ exists w, rdn data (42 + l * 8) 2 = Ok w /\
    raHandleFragment t data p = handleFragment t (Z.land (be16 w) 65528) (u32 (zlen data - (40 + l * 8) - 8)) (negb (Z.land (be16 w) 1 =? 0)) p.
Proof.
  intros (HZ & b0 & nxt & hi & lo & A0 & B0 & A6 & Hn & A40 & Hl & Hz & A50 & Hhi & Hlo & ->).
  unfold raHandleFragment. rewrite (at_aget _ _ _ A0). cbn [obind]. rewrite (version6 b0 B0). change (96 =? 64) with false. change (96 =? 96) with true. cbv iota.
  rewrite (at_aget _ _ _ A6). cbn [obind ra6]. rewrite (ext_type _ Hn). unfold in_bounds. replace (40 + 2 <? zlen data) with true by lia. cbn [negb].
  assert (A1 : at_ data 40 [44]).
  { destruct A40 as (_ & H2 & H3). split; [lia|]. split; [unfold zlen in *; cbn [length] in *; lia|]. cbn [length firstn] in *.
    destruct (skipn (Z.to_nat 40) data) as [|a [|b r]]; try discriminate. injection H3 as -> _. reflexivity. }
  assert (A2 : aget data (40 + 1) = Ok l).
  { apply at_aget. destruct A40 as (_ & H2 & H3). split; [lia|]. split; [unfold zlen in *; cbn [length] in *; lia|].
    assert (S2 : skipn (Z.to_nat (40 + 1)) data = tl (skipn (Z.to_nat 40) data)) by (change (Z.to_nat (40 + 1)) with (S (Z.to_nat 40)); apply skipn_tl).
    rewrite S2. cbn [length] in *.
    destruct (skipn (Z.to_nat 40) data) as [|a [|b r]]; try discriminate. injection H3 as _ ->. reflexivity. }
  rewrite (at_aget _ _ _ A1). cbn [obind]. rewrite A2. cbn [obind]. destruct (l =? 0) eqn:El; [left; split; [lia|reflexivity]|].
  right. split; [lia|].
  destruct (length data) as [|len] eqn:EL; [unfold zlen in *; lia|]. cbn [ra6]. change (is_ext 44 && negb (44 =? 44)) with false. change (44 =? 44) with true. cbv iota.
  unfold in_bounds. replace (40 + l * 8 + 8 <? zlen data) with true by lia. cbn [negb]. replace (40 + l * 8 + 2) with (42 + l * 8) by lia.
  assert (R : exists w, rdn data (42 + l * 8) 2 = Ok w).
  { assert (B : at_ data (42 + l * 8) (firstn 2 (skipn (Z.to_nat (42 + l * 8)) data))).
    { assert (L : length (firstn 2 (skipn (Z.to_nat (42 + l * 8)) data)) = 2%nat) by (rewrite firstn_length, skipn_length; unfold zlen in *; lia).
      split; [lia|]. unfold zlen in *. rewrite L. split; [lia|reflexivity]. }
    eexists. apply (rdn_at_n _ _ 2 _ B). rewrite firstn_length, skipn_length. unfold zlen in *. lia. }
  destruct R as [w R]. exists w. split; [assumption|]. rewrite R. reflexivity.
Qed.
Lemma ext_early p0 t p0' data f p : raNew p0 = (Some t, p0') -> ext_packet data 1 f -> at_ data 50 [0; 0] -> exists t' p', raHandleFragment t data p = Ok (0, t', p').
Proof.
  intros Hn He Ho. destruct (ext_read data 1 f t p He) as [[X _]|[_ [w [Hw ->]]]]; [discriminate|]. change (42 + 1 * 8) with 50 in Hw.
  rewrite (rdn_at_n _ _ 2 _ Ho eq_refl) in Hw. injection Hw as <-. change (Z.land (be16 [0; 0]) 65528) with 0. change (negb (Z.land (be16 [0; 0]) 1 =? 0)) with false.
  destruct He as (HZ & b0 & nxt & hi & lo & _ & _ & _ & _ & _ & _ & Hz & _). replace (u32 (zlen data - (40 + 1 * 8) - 8)) with (zlen data - 56) by (unfold u32, two32; rewrite Z.mod_small; lia).
  unfold raNew in Hn. destruct p0 as [|a [|b r]]; try discriminate. injection Hn as <- _.
  unfold handleFragment. cbn [t_holes t_head].
  replace (zlen data - 56 =? 0) with false by lia. cbv zeta. replace (u32 (u32 (0 + (zlen data - 56)) - 1)) with (zlen data - 57) by (unfold u32, two32; rewrite !Z.mod_small; rewrite ?Z.mod_small; lia).
  cbn [length]. change (S (2 * 1 + length p)) with (S (S (S (length p)))). rewrite scan_one. unfold INF. replace ((UINT_MAX <? 0) || (zlen data - 57 <? 0)) with false by (unfold UINT_MAX; lia).
  change (0 <? 0) with false. cbv iota. rewrite andb_false_r. cbv iota. cbn [obind]. eauto.
Qed.
