(** Examples of listings (C65): a reader of JSON, a library, and texts that
    are not read back. *)
From Coq Require Import String Permutation Sorted.
From Verif Require Import Base Lists Cstr_Model Util_Spec Util_Proofs Rangeset_Model Rangeset_Spec
  Rangeset_Proofs Rangeset2_Proofs IpKey_Model IpKey_Spec IpKey_Proofs Match_Model Match_Spec Match_Proofs
  Flow_Model Flow_Spec Cidr_Proofs Flow_Proofs Flow2_Proofs Flow3_Proofs Print_Model Print_Spec Print_Proofs
  Print2_Proofs Print3_Proofs Print4_Proofs.

(** ** A reader *)
Definition isws (c : Z) : bool := (c =? 32) || (c =? 9) || (c =? 10) || (c =? 13).
Definition jdigit (c : Z) : bool := (48 <=? c) && (c <=? 57).
Fixpoint jstr (s : chars) : option (chars * chars) :=
  match s with
  | [] => None
  | c :: r =>
      if c =? 34 then Some ([], r)
      else if (32 <=? c) && (c <? 256) && negb (c =? 92)
      then match jstr r with None => None | Some (t, r') => Some (c :: t, r') end
      else None
  end.
Definition jnum (s : chars) : option (json * chars) :=
  let (d, r) := span jdigit s in
  match d with
  | [] => None
  | 48 :: _ :: _ => None
  | _ => Some (JNum (fold_left (fun a c => a * 10 + (c - 48)) d 0), r)
  end.
Fixpoint jval (n : nat) (s : chars) : option (json * chars) :=
  match n with
  | O => None
  | S n =>
      match s with
      | [] => None
      | c :: r =>
          if c =? 34 then match jstr r with None => None | Some (t, r') => Some (JStr t, r') end
          else if c =? 91 then
            match snd (span isws r) with
            | 93 :: r' => Some (JArr [], r')
            | _ => match jitems n r with None => None | Some (l, r') => Some (JArr l, r') end
            end
          else if c =? 123 then match jmembers n r with None => None | Some (l, r') => Some (JObj l, r') end
          else jnum s
      end
  end
with jitems (n : nat) (s : chars) : option (list json * chars) :=
  match n with
  | O => None
  | S n =>
      match jval n (snd (span isws s)) with
      | None => None
      | Some (v, r) =>
          match snd (span isws r) with
          | 93 :: r' => Some ([v], r')
          | 44 :: r' => match jitems n r' with None => None | Some (l, r'') => Some (v :: l, r'') end
          | _ => None
          end
      end
  end
with jmembers (n : nat) (s : chars) : option (list (chars * json) * chars) :=
  match n with
  | O => None
  | S n =>
      match snd (span isws s) with
      | 34 :: r =>
          match jstr r with
          | None => None
          | Some (k, r) =>
              match snd (span isws r) with
              | 58 :: r =>
                  match jval n (snd (span isws r)) with
                  | None => None
                  | Some (v, r) =>
                      match snd (span isws r) with
                      | 125 :: r' => Some ([(k, v)], r')
                      | 44 :: r' => match jmembers n r' with None => None | Some (l, r'') => Some ((k, v) :: l, r'') end
                      | _ => None
                      end
                  end
              | _ => None
              end
          end
      | _ => None
      end
  end.

Lemma span_split p s : exists w, s = w ++ snd (span p s) /\ Forall (fun c => p c = true) w /\ w = fst (span p s).
Proof.
  induction s as [|c s (w & E & F & EW)]; cbn [span]; [exists []; repeat split; auto|]. destruct (p c) eqn:P.
  - destruct (span p s) as [a b]. cbn [fst snd] in *. exists (c :: w). subst. cbn [app]. repeat split; auto; congruence.
  - exists []. repeat split; auto.
Qed.
Lemma skipws s : exists w, s = w ++ snd (span isws s) /\ ws w.
Proof.
  destruct (span_split isws s) as (w & E & F & _). exists w. split; auto. eapply Forall_impl; [|exact F]. intros c. unfold isws. lia.
Qed.
Lemma jstr_ok s : forall t r, jstr s = Some (t, r) -> s = t ++ str """" ++ r /\ clean t.
Proof.
  induction s as [|c s IH]; intros t r; cbn [jstr]; [discriminate|]. destruct (c =? 34) eqn:E.
  - intros H. assert (t = [] /\ r = s) as (-> & ->) by (split; congruence). apply Z.eqb_eq in E. subst c. split; [reflexivity|constructor].
  - destruct (_ && _) eqn:E2; [|discriminate]. destruct (jstr s) as [[t' r']|] eqn:EJ; [|discriminate].
    intros H. assert (t = c :: t' /\ r = r') as (-> & ->) by (split; congruence). destruct (IH _ _ eq_refl) as (-> & C).
    split; [reflexivity|]. constructor; auto. lia.
Qed.
Lemma jnum_ok s v r : jnum s = Some (v, r) -> exists t, s = t ++ r /\ reads t v.
Proof.
  unfold jnum. destruct (span_split jdigit s) as (w & E & F & EW). destruct (span jdigit s) as [d r0]. cbn [fst snd] in *. subst w.
  intros H. exists d. assert (D : d <> [] /\ (hd 0 d = 48 -> d = [48]) /\ v = JNum (fold_left (fun a c => a * 10 + (c - 48)) d 0) /\ r = r0).
  { destruct d as [|c d']; [discriminate|]. split; [discriminate|].
    destruct (Z.eq_dec c 48) as [->|N].
    - destruct d'; [|discriminate]. split; [auto|]. split; congruence.
    - assert (X : match c with 48 => match d' with [] => Some (JNum (fold_left (fun a c => a * 10 + (c - 48)) (c :: d') 0), r0) | _ :: _ => None end
                  | _ => Some (JNum (fold_left (fun a c => a * 10 + (c - 48)) (c :: d') 0), r0) end
               = Some (JNum (fold_left (fun a c => a * 10 + (c - 48)) (c :: d') 0), r0)).
      { clear - N. destruct c as [|p|p]; auto. do 6 (destruct p as [p|p|]; auto). congruence. }
      split; [cbn [hd]; congruence|].
      assert (K : Some (JNum (fold_left (fun a c => a * 10 + (c - 48)) (c :: d') 0), r0) = Some (v, r)).
      { rewrite <- H. rewrite <- X. clear. destruct c as [|p|p]; auto. do 6 (destruct p as [p|p|]; auto). destruct d'; auto. }
      split; congruence. }
  destruct D as (D1 & D2 & -> & ->). split; auto. constructor. split; auto. split; [|split; auto].
  eapply Forall_impl; [|exact F]. intros c. unfold jdigit. lia.
Qed.

Lemma jread_ok n : (forall s v r, jval n s = Some (v, r) -> exists t, s = t ++ r /\ reads t v) /\
  (forall s l r, jitems n s = Some (l, r) -> exists t, s = t ++ str "]" ++ r /\ items t l) /\
  (forall s l r, jmembers n s = Some (l, r) -> exists t, s = t ++ str "}" ++ r /\ members t l).
Proof.
  induction n as [|n (IV & II & IM)]; [repeat split; discriminate|]. split; [|split].
  - intros s v r. cbn [jval]. destruct s as [|c s]; [discriminate|]. destruct (c =? 34) eqn:E1; [|destruct (c =? 91) eqn:E2; [|destruct (c =? 123) eqn:E3]].
    + apply Z.eqb_eq in E1. subst c. destruct (jstr s) as [[t r']|] eqn:E; [|discriminate]. apply jstr_ok in E. destruct E as (-> & C).
      intros H. assert (v = JStr t /\ r = r') as (-> & ->) by (split; congruence). exists (str """" ++ t ++ str """").
      split; [cbn [str app]; rewrite <- !app_assoc; reflexivity|constructor; auto].
    + apply Z.eqb_eq in E2. subst c.
      assert (G : match jitems n s with None => None | Some (l, r') => Some (JArr l, r') end = Some (v, r) -> exists t, 91 :: s = t ++ r /\ reads t v).
      { destruct (jitems n s) as [[l r']|] eqn:E; [|discriminate]. apply II in E. destruct E as (t & -> & I). intros H.
        assert (v = JArr l /\ r = r') as (-> & ->) by (split; congruence). exists (str "[" ++ t ++ str "]").
        split; [cbn [str app]; rewrite <- !app_assoc; reflexivity|apply reads_arr; auto]. }
      destruct (skipws s) as (w & EW & W). destruct (snd (span isws s)) as [|c r0] eqn:ES; [exact G|].
      destruct (Z.eq_dec c 93) as [->|N].
      * intros H. assert (v = JArr [] /\ r = r0) as (-> & ->) by (split; congruence). exists (str "[" ++ w ++ str "]").
        split; [rewrite EW; cbn [str app]; rewrite <- !app_assoc; reflexivity|constructor; auto].
      * intros H. apply G. rewrite <- H. clear - N. destruct c as [|p|p]; auto. do 7 (destruct p as [p|p|]; auto). congruence.
    + apply Z.eqb_eq in E3. subst c. destruct (jmembers n s) as [[l r']|] eqn:E; [|discriminate]. apply IM in E. destruct E as (t & -> & I). intros H.
      assert (v = JObj l /\ r = r') as (-> & ->) by (split; congruence). exists (str "{" ++ t ++ str "}").
      split; [cbn [str app]; rewrite <- !app_assoc; reflexivity|apply reads_obj; auto].
    + apply jnum_ok.
  - intros s l r. cbn [jitems]. destruct (skipws s) as (w & EW & W). destruct (jval n (snd (span isws s))) as [[v r1]|] eqn:EV; [|discriminate].
    apply IV in EV. destruct EV as (t & ET & R). rewrite ET in EW. destruct (skipws r1) as (w' & EW' & W').
    destruct (snd (span isws r1)) as [|c r2]; [discriminate|].
    destruct (Z.eq_dec c 93) as [->|N1]; [|destruct (Z.eq_dec c 44) as [->|N2]].
    + intros H. assert (l = [v] /\ r = r2) as (-> & ->) by (split; congruence). exists (w ++ t ++ w'). rewrite EW, EW'.
      split; [rewrite <- !app_assoc; reflexivity|constructor; auto].
    + destruct (jitems n r2) as [[l' r3]|] eqn:E; [|discriminate]. apply II in E. destruct E as (t2 & -> & I).
      intros H. assert (l = v :: l' /\ r = r3) as (-> & ->) by (split; congruence). exists (w ++ t ++ w' ++ str "," ++ t2). rewrite EW, EW'.
      split; [cbn [str app]; rewrite <- !app_assoc; cbn [app]; reflexivity|constructor; auto].
    + intros H. exfalso. clear - H N1 N2. destruct c as [|p|p]; try discriminate. do 7 (try (destruct p as [p|p|]; try discriminate; try congruence)).
  - intros s l r. cbn [jmembers]. destruct (skipws s) as (w & EW & W). destruct (snd (span isws s)) as [|c r0]; [discriminate|].
    destruct (Z.eq_dec c 34) as [->|N].
    2:{ intros H. exfalso. clear - H N. destruct c as [|p|p]; try discriminate. do 6 (destruct p as [p|p|]; try discriminate); congruence. }
    destruct (jstr r0) as [[k r1]|] eqn:EJ; [|discriminate]. apply jstr_ok in EJ. destruct EJ as (-> & C).
    destruct (skipws r1) as (w1 & EW1 & W1). destruct (snd (span isws r1)) as [|c r2]; [discriminate|].
    destruct (Z.eq_dec c 58) as [->|N].
    2:{ intros H. exfalso. clear - H N. destruct c as [|p|p]; try discriminate. do 6 (destruct p as [p|p|]; try discriminate); congruence. }
    destruct (skipws r2) as (w2 & EW2 & W2). destruct (jval n (snd (span isws r2))) as [[v r3]|] eqn:EV; [|discriminate].
    apply IV in EV. destruct EV as (t & ET & R). rewrite ET in EW2. destruct (skipws r3) as (w3 & EW3 & W3).
    destruct (snd (span isws r3)) as [|c r4]; [discriminate|].
    destruct (Z.eq_dec c 125) as [->|N1]; [|destruct (Z.eq_dec c 44) as [->|N2]].
    + intros H. assert (l = [(k, v)] /\ r = r4) as (-> & ->) by (split; congruence).
      exists (w ++ str """" ++ k ++ str """" ++ w1 ++ str ":" ++ w2 ++ t ++ w3). rewrite EW, EW1, EW2, EW3.
      split; [rewrite <- !app_assoc; reflexivity|constructor; auto].
    + destruct (jmembers n r4) as [[l' r5]|] eqn:E; [|discriminate]. apply IM in E. destruct E as (t2 & -> & I).
      intros H. assert (l = (k, v) :: l' /\ r = r5) as (-> & ->) by (split; congruence).
      exists (w ++ str """" ++ k ++ str """" ++ w1 ++ str ":" ++ w2 ++ t ++ w3 ++ str "," ++ t2). rewrite EW, EW1, EW2, EW3.
      split; [rewrite <- !app_assoc; reflexivity|constructor; auto].
    + intros H. exfalso. clear - H N1 N2. destruct c as [|p|p]; try discriminate. do 7 (try (destruct p as [p|p|]; try discriminate; try congruence)).
Qed.
Definition jparse (s : chars) : option json :=
  match jval (length s) (snd (span isws s)) with
  | Some (v, r) => match snd (span isws r) with [] => Some v | _ => None end
  | None => None
  end.
Lemma jparse_ok s v : jparse s = Some v -> json_text s v.
Proof.
  unfold jparse. destruct (skipws s) as (w & EW & W). destruct (jval (length s) (snd (span isws s))) as [[v' r]|] eqn:E; [|discriminate].
  apply jread_ok in E. destruct E as (t & ET & R). destruct (skipws r) as (w' & EW' & W'). destruct (snd (span isws r)); [|discriminate].
  intros H. assert (v' = v) by congruence. subst v'. rewrite ET in EW. rewrite app_nil_r in EW'. subst r. exists w, t, w'. auto.
Qed.

(** ** A library: inet_ntop writes all eight groups with four digits each *)
Definition hexc (d : Z) : Z := if d <? 10 then 48 + d else 87 + d.
Definition hexv (c : Z) : option Z :=
  if (48 <=? c) && (c <=? 57) then Some (c - 48) else if (97 <=? c) && (c <=? 102) then Some (c - 87) else None.
Definition byte_text (b : Z) : chars := [hexc (b / 16); hexc (b mod 16)].
Definition byte_val (s : chars) : option (Z * chars) :=
  match s with
  | a :: b :: r => match hexv a, hexv b with Some x, Some y => Some (16 * x + y, r) | _, _ => None end
  | _ => None
  end.
Lemma hexc_ok d : 0 <= d < 16 -> hexv (hexc d) = Some d /\ 48 <= hexc d <= 102 /\ hexc d <> 58 /\ hexc d <> 92.
Proof.
  intros H. unfold hexv, hexc. destruct (d <? 10) eqn:E.
  - replace ((48 <=? 48 + d) && (48 + d <=? 57)) with true by lia. split; [f_equal; lia|lia].
  - replace ((48 <=? 87 + d) && (87 + d <=? 57)) with false by lia. replace ((97 <=? 87 + d) && (87 + d <=? 102)) with true by lia.
    split; [f_equal; lia|lia].
Qed.
Lemma hexv_range c v : hexv c = Some v -> 0 <= v < 16.
Proof.
  unfold hexv. destruct ((48 <=? c) && (c <=? 57)) eqn:E; [intros H; injection H as <-; lia|].
  destruct ((97 <=? c) && (c <=? 102)) eqn:E2; intros H; [injection H as <-; lia|discriminate].
Qed.
Lemma byte_back b r : 0 <= b < 256 -> byte_val (byte_text b ++ r) = Some (b, r).
Proof.
  intros H. cbn [byte_text app byte_val]. pose proof (Z.div_mod b 16). pose proof (Z.mod_pos_bound b 16).
  assert (0 <= b / 16 < 16) by (split; [apply Z.div_pos; lia|apply Z.div_lt_upper_bound; lia]).
  destruct (hexc_ok (b / 16)) as (-> & _); [auto|]. destruct (hexc_ok (b mod 16)) as (-> & _); [lia|]. f_equal. f_equal. lia.
Qed.
Lemma byte_val_range s b r : byte_val s = Some (b, r) -> 0 <= b < 256.
Proof.
  destruct s as [|x [|y s]]; cbn [byte_val]; try discriminate. destruct (hexv x) eqn:E; [|discriminate]. destruct (hexv y) eqn:E2; [|discriminate].
  apply hexv_range in E, E2. intros H. assert (b = 16 * z + z0) by congruence. lia.
Qed.
(** [n] groups, separated by colons *)
Fixpoint groups_text (l : list Z) : chars :=
  match l with
  | a :: b :: l' => byte_text a ++ byte_text b ++ match l' with [] => [] | _ => str ":" ++ groups_text l' end
  | _ => []
  end.
Fixpoint groups_val (n : nat) (s : chars) : option (list Z) :=
  match n with
  | O => None
  | S n' =>
      match byte_val s with None => None | Some (a, s) =>
      match byte_val s with None => None | Some (b, s) =>
      match n', s with
      | O, [] => Some [a; b]
      | S _, 58 :: s => match groups_val n' s with None => None | Some l => Some (a :: b :: l) end
      | _, _ => None
      end end end
  end.
Lemma groups_back n : forall l, length l = (2 * S n)%nat -> Forall (fun b => 0 <= b < 256) l -> groups_val (S n) (groups_text l) = Some l.
Proof.
  induction n as [|n IH]; intros l LN F; (destruct l as [|a [|b l]]; [discriminate|discriminate|]);
    cbn [length] in LN;
    pose proof (Forall_inv F) as A; pose proof (Forall_inv (Forall_inv_tail F)) as B; pose proof (Forall_inv_tail (Forall_inv_tail F)) as C;
    cbn [groups_text].
  - assert (l = []) as -> by (destruct l; [auto|discriminate]). cbn [groups_val]. rewrite byte_back by auto. rewrite byte_back by auto. reflexivity.
  - destruct l as [|c l]; [cbn [length] in LN; lia|]. change (groups_val (S (S n)) (byte_text a ++ byte_text b ++ str ":" ++ groups_text (c :: l))) with
      (match byte_val (byte_text a ++ byte_text b ++ 58 :: groups_text (c :: l)) with None => None | Some (a, s) =>
       match byte_val s with None => None | Some (b, s) =>
       match s with 58 :: s => match groups_val (S n) s with None => None | Some l => Some (a :: b :: l) end | _ => None end end end).
    rewrite byte_back by auto. rewrite byte_back by auto. rewrite IH; [reflexivity|cbn [length] in *; lia|auto].
Qed.
Lemma groups_bytes n : forall s l, groups_val n s = Some l -> length l = (2 * n)%nat /\ Forall (fun b => 0 <= b < 256) l.
Proof.
  induction n as [|n IH]; intros s l; cbn [groups_val]; [discriminate|].
  destruct (byte_val s) as [[a s1]|] eqn:E1; [|discriminate]. destruct (byte_val s1) as [[b s2]|] eqn:E2; [|discriminate].
  apply byte_val_range in E1, E2. destruct n as [|n].
  - destruct s2; [|discriminate]. intros H. assert (l = [a; b]) as -> by congruence. split; auto.
  - destruct s2 as [|c s2]; [discriminate|]. destruct (Z.eq_dec c 58) as [->|N].
    + destruct (groups_val (S n) s2) as [l'|] eqn:E; [|discriminate]. intros H. assert (l = a :: b :: l') as -> by congruence.
      destruct (IH _ _ E) as (L & F). split; [cbn [length] in *; lia|auto].
    + intros H. exfalso. clear - H N. destruct c as [|p|p]; try discriminate. do 6 (destruct p as [p|p|]; try discriminate); congruence.
Qed.
Lemma byte_text_chars b : 0 <= b < 256 -> Forall (fun c => 48 <= c <= 102 /\ c <> 92) (byte_text b) /\ zlen (byte_text b) = 2.
Proof.
  intros H. pose proof (Z.mod_pos_bound b 16). assert (0 <= b / 16 < 16) by (split; [apply Z.div_pos; lia|apply Z.div_lt_upper_bound; lia]).
  destruct (hexc_ok (b / 16)) as (_ & A & _ & A2); [auto|]. destruct (hexc_ok (b mod 16)) as (_ & B & _ & B2); [lia|].
  split; [|reflexivity]. repeat constructor; auto; lia.
Qed.
Lemma groups_chars n : forall l, length l = (2 * n)%nat -> Forall (fun b => 0 <= b < 256) l ->
  Forall (fun c => 48 <= c <= 102 /\ c <> 92) (groups_text l) /\ zlen (groups_text l) <= 5 * Z.of_nat n /\ ((2 <= n)%nat -> In 58 (groups_text l)).
Proof.
  induction n as [|n IH]; intros l LN F.
  - destruct l; [|discriminate]. cbn. repeat split; auto; lia.
  - destruct l as [|a [|b l]]; [discriminate|cbn [length] in LN; lia|]. cbn [length] in LN.
    pose proof (Forall_inv F) as A; pose proof (Forall_inv (Forall_inv_tail F)) as B; pose proof (Forall_inv_tail (Forall_inv_tail F)) as C.
    destruct (IH l ltac:(lia) C) as (I1 & I2 & I3). destruct (byte_text_chars a A) as (A1 & A2). destruct (byte_text_chars b B) as (B1 & B2).
    cbn [groups_text]. destruct l as [|c l].
    + rewrite app_nil_r. split; [apply Forall_app; auto|]. split; [rewrite zlen_app; lia|]. cbn [length] in LN. lia.
    + split.
      * apply Forall_app. split; auto. apply Forall_app. split; auto. apply Forall_app. split; [repeat constructor; discriminate|auto].
      * rewrite !zlen_app. change (zlen (str ":")) with 1. split; [lia|]. intros _. rewrite !in_app_iff. right. right. left. cbn. auto.
Qed.

Definition ex2_pton (s : chars) : option (list Z) :=
  match s with 58 :: _ => ex_pton s | _ => match groups_val 8 s with Some l => Some l | None => ex_pton s end end.
Definition ex2_lib : libc := mkLibc ex2_pton isort fsort.
Definition ex2_printer (g : option (Z -> chars)) : printer := mkPr groups_text (fun _ => 5) g (repeat 170 1024).
Lemma ex2_pton_cases s : ex2_pton s = ex_pton s \/ exists l, groups_val 8 s = Some l /\ ex2_pton s = Some l.
Proof.
  unfold ex2_pton. destruct s as [|c s]; [cbn; auto|].
  destruct (Z.eq_dec c 58) as [->|N]; [auto|]. destruct (groups_val 8 (c :: s)) as [l|] eqn:E.
  - right. exists l. split; auto. clear - N. destruct c as [|p|p]; auto. do 6 (destruct p as [p|p|]; auto). congruence.
  - left. clear. destruct c as [|p|p]; auto. do 6 (destruct p as [p|p|]; auto).
Qed.
Lemma ex2_lib_ok : libc_ok ex2_lib.
Proof.
  destruct ex_lib_ok as ((P1 & P2) & Q & S). split; [|split; auto]. split; cbn [pton ex2_lib].
  - intros s b H. destruct (ex2_pton_cases s) as [E|(l & G & E)]; rewrite E in H; [eapply P1; eauto|].
    assert (l = b) by congruence. subst l. apply groups_bytes in G. destruct G. split; auto.
  - intros s q H. exact (P2 s q H).
Qed.
Lemma ex2_ntop_ok g : ntop_ok ex2_lib (ex2_printer g).
Proof.
  split; [|split; [vm_compute; reflexivity|intros f; cbn; unfold is_u32, UINT_MAX; lia]].
  intros b (LN & F). cbn [pton ex2_lib ntop ex2_printer]. destruct (groups_chars 8 b LN F) as (C & L & I).
  pose proof (groups_back 7 b LN F) as G. split; [|split; [|split; [|split]]].
  - destruct b as [|x [|y b]]; [discriminate|discriminate|]. pose proof (Forall_inv F) as X. cbv beta in X. unfold ex2_pton. rewrite G.
    cbn [groups_text byte_text app].
    destruct (hexc_ok (x / 16)) as (_ & _ & N & _); [split; [apply Z.div_pos; lia|apply Z.div_lt_upper_bound; lia]|].
    clear - N. set (c := hexc (x / 16)) in *. clearbody c. destruct c as [|p|p]; auto. do 6 (destruct p as [p|p|]; auto). congruence.
  - apply I. lia.
  - intros K. rewrite Forall_forall in C. apply C in K. lia.
  - eapply Forall_impl; [|exact C]. intros c Hc. cbv beta in *. lia.
  - lia.
Qed.

(** ** Definitions that are not shown as they are *)
Lemma shown_play L P a v : 
  match run L [] [Define a] with
  | Ok (set, [Defined None]) => match flowSetPrint P set (Some (a_name a)) with Ok s => jparse s = Some v | _ => False end
  | _ => False
  end -> shown_as L P a v.
Proof.
  destruct (run L [] [Define a]) as [[set ans]| | |] eqn:E; try tauto. destruct ans as [|[[|]|] [|]]; try tauto.
  destruct (flowSetPrint P set (Some (a_name a))) as [s| | |] eqn:E2; try tauto. intros H. exists set, s. split; auto. split; auto. apply jparse_ok. auto.
Qed.
Definition ex2_P : printer := ex2_printer None.
Definition same (s : chars) (n : nat) : list chars := repeat s n.
(** An SCTP packet whose bytes 4-7 are all ones *)
Definition ex_ff_packet : list Z :=
  [69; 0; 0; 36; 0; 0; 0; 0; 64; 132; 0; 0; 10; 0; 0; 1; 10; 0; 0; 2; 4; 210; 0; 80; 255; 255; 255; 255; 0; 0; 0; 0; 1; 2; 3; 4].
Definition ex_ff_key : key := mkKey (mapped [10; 0; 0; 1]) (mapped [10; 0; 0; 2]) [0; 0; 132; 0; 4; 210; 0; 80].
(** Ports 10001, 10003, .. *)
Fixpoint odd_ports (n : nat) (p : Z) : list chars :=
  match n with O => [] | S n' => dec p :: odd_ports n' (p + 2) end.
