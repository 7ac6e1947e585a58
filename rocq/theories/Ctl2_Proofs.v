(** Proofs for C81: the commands from their lines to their ends. *)
From Coq Require Import String.
From Verif Require Import Base Lists Cstr_Model Rangeset_Model Rangeset_Spec Rangeset2_Proofs Util_Model Util_Spec Util_Proofs Shm_Model Log_Model Match_Spec Match_Proofs
  Start_Spec Start_Proofs Lines_Proofs Opt_Model Opt_Spec Opt_Proofs Opt2_Proofs Ctl_Model Ctl_Spec Ctl_Proofs.

(** ** Texts of numbers *)
Lemma sdec_num v : - 2147483648 <= v <= 2147483647 -> is_num (sdec v) v.
Proof.
  intro R. split; [exact R|]. unfold sdec. destruct (Z.ltb_spec v 0).
  - right. exists (dec (- v)). split; [reflexivity|]. apply dec_ok. unfold is_u32, UINT_MAX. lia.
  - left. apply dec_ok. unfold is_u32, UINT_MAX. lia.
Qed.
Lemma hexDigit_ok v : 0 <= v < 16 -> (48 <= hexDigit v <= 57 \/ 97 <= hexDigit v <= 102) /\ hex_value (hexDigit v) = v.
Proof.
  intro R. assert (D : v = 0 \/ v = 1 \/ v = 2 \/ v = 3 \/ v = 4 \/ v = 5 \/ v = 6 \/ v = 7 \/ v = 8 \/ v = 9 \/ v = 10 \/ v = 11 \/ v = 12 \/ v = 13 \/ v = 14 \/ v = 15) by lia.
  repeat destruct D as [->|D]; try (split; [vm_compute; intuition discriminate|reflexivity]). subst v. split; [vm_compute; intuition discriminate|reflexivity].
Qed.
Lemma hex8_ok v : 0 <= v < two32 -> zlen (hex8 v) = 8 /\ is_hex (hex8 v) v.
Proof.
  intro R. split; [reflexivity|]. split; [discriminate|].
  assert (M : forall k, 0 <= Z.shiftr v (4 * k) mod 16 < 16) by (intro k; apply Z.mod_pos_bound; lia).
  split; [unfold hex8; rewrite Forall_map, Forall_forall; intros k _; apply hexDigit_ok, M|].
  unfold hex8. cbn [map fold_left]. rewrite !(fun k => proj2 (hexDigit_ok _ (M k))).
  rewrite !Z.shiftr_div_pow2 by lia.
  change (2 ^ (4 * 7)) with 268435456. change (2 ^ (4 * 6)) with 16777216. change (2 ^ (4 * 5)) with 1048576. change (2 ^ (4 * 4)) with 65536.
  change (2 ^ (4 * 3)) with 4096. change (2 ^ (4 * 2)) with 256. change (2 ^ (4 * 1)) with 16. change (2 ^ (4 * 0)) with 1.
  unfold two32 in R. rewrite Z.div_1_r. clear M.
  assert (D : forall b c, 0 < b -> c = b * 16 -> (v / b) mod 16 = v / b - 16 * (v / c)).
  { intros b c Hb ->. rewrite <- Z.div_div by lia. rewrite Z.mod_eq by lia. lia. }
  rewrite (D 268435456 4294967296), (D 16777216 268435456), (D 1048576 16777216), (D 65536 1048576), (D 4096 65536), (D 256 4096), (D 16 256) by lia.
  rewrite (Z.div_small v 4294967296) by lia. rewrite Z.mod_eq by lia. ring.
Qed.

(** ** To the mapped object without interruption *)
Lemma crun_app w a b w1 o1 w2 o2 : crun w a = Some (w1, o1) -> crun w1 b = Some (w2, o2) -> crun w (a ++ b) = Some (w2, o1 ++ o2).
Proof.
  revert w o1. induction a as [|l a IH]; intros w o1 H1 H2; cbn [crun app] in *.
  - injection H1 as <- <-. exact H2.
  - destruct (cstep w l) as [[w' ob]|]; [|discriminate]. destruct (crun w' a) as [[w'' obs]|] eqn:E; [|discriminate]. injection H1 as <- <-.
    rewrite (IH _ _ E H2). rewrite app_assoc. reflexivity.
Qed.
Lemma crun_step w k : crun w [LStep k] = match pstep w k with Some (w', ob) => Some (w', ob ++ []) | None => None end.
Proof. cbn [crun cstep]. destruct (pstep w k) as [[w' ob]|]; reflexivity. Qed.
(** The state with the object (l, m) and process k at p *)
Definition has (w : cworld) (k l m : Z) (p : pstate) : Prop := c_obj w = Some (Some (l, m)) /\ c_procs w k = p.
Definition obj_is (w : cworld) (l m : Z) : Prop :=
  c_obj w = Some (Some (l, m)) \/ (l = 5 /\ m = 0 /\ (c_obj w = None \/ c_obj w = Some None)).
Lemma phase_obj w l m : phase w l m -> obj_is w l m.
Proof. intros [-> -> Eo _ _|(Eo & _)]; [right|left]; auto. Qed.
Lemma to_map w k l m j : obj_is w l m -> c_procs w k = Open1 j ->
  exists n w1, crun w (repeat (LStep k) n) = Some (w1, []) /\ has w1 k l m (mapped j).
Proof.
  assert (A' : forall w j, c_procs w k = Create j -> exists w1, crun w (repeat (LStep k) 4) = Some (w1, []) /\ has w1 k 5 0 (mapped j)).
  { intros w0 j0 H0. cbn [repeat crun cstep]. unfold pstep at 1. rewrite H0. unfold pstep at 1. cbn [c_procs c_obj at_state]. rewrite !pupd_same.
    unfold pstep at 1. cbn [c_procs c_obj at_state]. rewrite !pupd_same. unfold pstep at 1. cbn [c_procs c_obj at_state]. rewrite !pupd_same.
    eexists. split; [reflexivity|]. split; [reflexivity|]. cbn [at_state c_procs]. apply pupd_same. }
  intros P H. destruct P as [Eo|(-> & -> & [Eo|Eo])]; cycle 1.
  - destruct (A' (at_state w k (Create j)) j) as (w1 & R & Hh); [apply pupd_same|]. exists 5%nat, w1. split; [|exact Hh].
    cbn [repeat crun cstep] in *. unfold pstep at 1. rewrite H, Eo. rewrite R. reflexivity.
  - destruct (A' (at_state (at_state w k (Stat1 j)) k (Create j)) j) as (w1 & R & Hh); [apply pupd_same|]. exists 6%nat, w1. split; [|exact Hh].
    cbn [repeat crun cstep] in *. unfold pstep at 1. rewrite H, Eo. unfold pstep at 1. cbn [c_procs c_obj at_state] in *. rewrite pupd_same, Eo. rewrite R. reflexivity.
  - exists 2%nat. cbn [repeat crun cstep]. unfold pstep at 1. rewrite H, Eo. unfold pstep at 1. cbn [c_procs c_obj at_state]. rewrite pupd_same, Eo.
    eexists. split; [reflexivity|]. split; [exact Eo|]. cbn [at_state c_procs]. apply pupd_same.
Qed.

(** ** loglevel *)
Lemma no_table : Opt_Spec.table_ok noOpts /\ forall o, In o noOpts -> p_req o = false.
Proof. split; [exact (proj1 (Forall_forall _ _) tables_all_ok noOpts ltac:(cbn; tauto))|]. intros o H. cbn [noOpts In] in H. destruct H as [<-|[]]. reflexivity. Qed.
Lemma trace_table : Opt_Spec.table_ok traceOpts /\ forall o, In o traceOpts -> p_req o = false.
Proof. split; [exact (proj1 (Forall_forall _ _) tables_all_ok traceOpts ltac:(cbn; tauto))|]. intros o H. cbn [traceOpts In] in H. repeat destruct H as [<-|H]; try reflexivity. destruct H. Qed.

Lemma begin_open w k t j l m : phase w l m -> c_procs w k = Off ->
  exists w1 n w2, begin w k (Ok (inr (t, j))) = Some (w1, match t with [] => [] | _ => [Prints k t] end) /\
  crun w1 (repeat (LStep k) n) = Some (w2, []) /\ has w2 k l m (mapped j).
Proof.
  intros P H. unfold begin. rewrite H. destruct (to_map (at_state w k (Open1 j)) k l m j) as (n & w2 & R & Hh); [exact (phase_obj _ _ _ P)|apply pupd_same|].
  exists (at_state w k (Open1 j)), n, w2. split; [reflexivity|auto].
Qed.

Lemma level_line its tail : Forall (item_ok noOpts) its ->
  lineLoglevel (line its tail) = Ok (inr ([], JLevel (match rest_words its tail with w :: _ => Some (atoi w) | [] => None end))).
Proof.
  intro F. destruct no_table as (T & R). destruct (line_vals2 noOpts its tail T F (none_missing _ _ R)) as (vals & P & _).
  unfold lineLoglevel. rewrite P. reflexivity.
Qed.
Lemma level_set tr w k its tail wd more n : cexecBy one_at_a_time cstart tr w -> c_procs w k = Off ->
  Forall (item_ok noOpts) its -> rest_words its tail = wd :: more -> is_num wd n ->
  exists i w' t, crun w (LLevel k (line its tail) :: repeat (LStep k) i) = Some (w', [SetsLevel k n; Prints k (str "loglevel=" ++ t ++ [10]); Ends k 0]) /\ is_num t n.
Proof.
  intros E H F Rw N. destruct (one_ok _ _ E) as (_ & P).
  destruct (begin_open w k [] (JLevel (Some n)) _ _ P H) as (w1 & i & w2 & B & C & (O & Q)).
  exists (i + 2)%nat. do 2 eexists. split; [|apply sdec_num; exact (proj1 N)]. cbn [crun cstep]. rewrite (level_line its tail F), Rw, (atoi_num _ _ N), B.
  rewrite repeat_app. erewrite (crun_app w1 _ _ w2 []); [reflexivity|exact C|].
  cbn [repeat crun cstep mapped] in *. unfold pstep at 1. rewrite Q. unfold access. rewrite O. unfold pstep. cbn [c_procs]. rewrite pupd_same. unfold access. cbn [c_obj fst]. reflexivity.
Qed.
Lemma level_shown tr w k its tail : cexecBy one_at_a_time cstart tr w -> c_procs w k = Off ->
  Forall (item_ok noOpts) its -> rest_words its tail = [] -> - 2147483648 <= level_after 5 tr <= 2147483647 ->
  exists i w' t, crun w (LLevel k (line its tail) :: repeat (LStep k) i) = Some (w', [Prints k (str "loglevel=" ++ t ++ [10]); Ends k 0]) /\ is_num t (level_after 5 tr).
Proof.
  intros E H F Rw N. destruct (one_ok _ _ E) as (_ & P).
  destruct (begin_open w k [] (JLevel None) _ _ P H) as (w1 & i & w2 & B & C & (O & Q)).
  exists (i + 1)%nat. do 2 eexists. split; [|apply sdec_num; exact N]. cbn [crun cstep]. rewrite (level_line its tail F), Rw, B.
  rewrite repeat_app. erewrite (crun_app w1 _ _ w2 []); [reflexivity|exact C|].
  cbn [repeat crun cstep mapped] in *. unfold pstep at 1. rewrite Q. unfold access. rewrite O. cbn [fst]. reflexivity.
Qed.

(** ** trace *)
Lemma trace_line its tail ms sel x : Forall (item_ok traceOpts) its -> value_of traceOpts its "mask" ms -> value_of traceOpts its "selection" sel ->
  cmdTrace_mask ms sel = Ok x -> lineTrace (line its tail) = Ok (inr (str "Mask=0x" ++ hex8 x ++ [10], JTrace x)).
Proof.
  intros F V1 V2 X. destruct trace_table as (T & R). destruct (line_vals2 traceOpts its tail T F (none_missing _ _ R)) as (vals & P & L & V).
  unfold lineTrace. rewrite P. cbn [obind]. unfold zlen in L. cbn [traceOpts length] in L.
  assert (A1 := V 1 _ "mask"%string _ eq_refl eq_refl V1). assert (A2 := V 2 _ "selection"%string _ eq_refl eq_refl V2).
  destruct vals as [|a [|b [|c [|d [|e r]]]]]; cbn [length] in L; try lia.
  cbn in A1, A2. injection A1 as ->. injection A2 as ->. rewrite X. reflexivity.
Qed.
Lemma texts_run w k ts : c_procs w k = Copy -> crun w (map (LText k) ts ++ [LEof k]) = Some (at_state w k Gone, map (Prints k) ts ++ [Ends k 0]).
Proof.
  intro H. induction ts as [|t ts IH]; cbn [map app crun cstep]; rewrite H; [reflexivity|]. rewrite IH. reflexivity.
Qed.
Lemma trace_set tr w k its tail ms sel x ts : cexecBy one_at_a_time cstart tr w -> c_procs w k = Off ->
  Forall (item_ok traceOpts) its -> value_of traceOpts its "mask" ms -> value_of traceOpts its "selection" sel ->
  cmdTrace_mask ms sel = Ok x -> 0 <= x < two32 ->
  exists i w' h, zlen h = 8 /\ is_hex h x /\
   crun w (LTrace k (line its tail) :: repeat (LStep k) i ++ map (LText k) ts ++ [LEof k]) =
    Some (w', Prints k (str "Mask=0x" ++ h ++ [10]) :: SetsMask k x :: map (Prints k) ts ++ [Ends k 0]).
Proof.
  intros E H F V1 V2 X R. destruct (one_ok _ _ E) as (_ & P). destruct (hex8_ok x R) as (Z8 & Hx).
  destruct (begin_open w k (str "Mask=0x" ++ hex8 x ++ [10]) (JTrace x) _ _ P H) as (w1 & i & w2 & B & C & (O & Q)).
  exists (i + 2)%nat. eexists. exists (hex8 x). split; [exact Z8|]. split; [exact Hx|]. cbn [crun cstep]. rewrite (trace_line its tail ms sel x F V1 V2 X), B.
  rewrite repeat_app, <- app_assoc. erewrite (crun_app w1 _ _ w2 []); [reflexivity|exact C|].
  eapply (crun_app w2 (repeat (LStep k) 2) _ _ [SetsMask k x]).
  - cbn [repeat crun cstep mapped] in *. unfold pstep at 1. rewrite Q. unfold access. rewrite O. unfold pstep. cbn [c_procs]. rewrite pupd_same. reflexivity.
  - apply texts_run. cbn [at_state c_procs]. apply pupd_same.
Qed.
Lemma or_bits l : forall m, 0 <= m < two32 -> (forall x, In x l -> 0 <= x < two32) -> 0 <= fold_left Z.lor l m < two32.
Proof.
  induction l as [|a l IH]; intros m Hm Hl; [exact Hm|]. cbn [fold_left]. apply IH; [|intros; apply Hl; right; assumption].
  assert (A := Hl a (or_introl eq_refl)). split; [apply Z.lor_nonneg; lia|].
  destruct (Z.eq_dec (Z.lor m a) 0) as [->|]; [unfold two32; lia|]. unfold two32 in *. change 4294967296 with (2 ^ 32) in *. apply Z.log2_lt_pow2; [assert (0 <= Z.lor m a) by (apply Z.lor_nonneg; lia); lia|].
  rewrite Z.log2_lor by lia. destruct (Z.eq_dec m 0) as [->|]; destruct (Z.eq_dec a 0) as [->|]; cbn [Z.log2]; try (apply Z.max_lub_lt; try lia; apply Z.log2_lt_pow2; lia).
Qed.
Lemma str2mask_range t : 0 <= str2mask t < two32.
Proof.
  unfold str2mask, traceEvent, two32. cbn [str2mask_in]. repeat match goal with |- context[streq t ?s] => destruct (streq t s); [lia|] end. lia.
Qed.
Lemma fold_map_or l : forall m, fold_left (fun m t => Z.lor m (str2mask t)) l m = fold_left Z.lor (map str2mask l) m.
Proof. induction l as [|a l IH]; intro m; [reflexivity|]. cbn [fold_left map]. apply IH. Qed.
Lemma selection_range sel x : cmdTrace_mask None (Some sel) = Ok x -> 0 <= x < two32.
Proof.
  cbn [cmdTrace_mask]. unfold traceSelection. destruct (toks (length sel) (str ",") sel) as [l| | |]; cbn [obind]; try discriminate. intro H. injection H as <-.
  rewrite fold_map_or. apply or_bits; [unfold two32; lia|]. intros y Hy. apply in_map_iff in Hy. destruct Hy as (t & <- & _). apply str2mask_range.
Qed.
Lemma trace_selected tr w k its tail s ts : cexecBy one_at_a_time cstart tr w -> c_procs w k = Off ->
  Forall (item_ok traceOpts) its -> value_of traceOpts its "mask" None -> value_of traceOpts its "selection" (Some s) ->
  exists i w' h x l, zlen h = 8 /\ is_hex h x /\ pieces (str ",") s l /\ (forall j, 0 <= j -> (Z.testbit x j = true <-> exists t, In t l /\ In (t, j) areas)) /\
   crun w (LTrace k (line its tail) :: repeat (LStep k) i ++ map (LText k) ts ++ [LEof k]) =
    Some (w', Prints k (str "Mask=0x" ++ h ++ [10]) :: SetsMask k x :: map (Prints k) ts ++ [Ends k 0]).
Proof.
  intros E H F V1 V2. destruct (trace_union s) as (l & x & Pc & X & Bits).
  destruct (trace_set tr w k its tail None (Some s) x ts E H F V1 V2 X (selection_range _ _ X)) as (i & w' & h & A & B & C).
  exists i, w', h, x, l. auto.
Qed.
Lemma trace_masked tr w k its tail s v ts : cexecBy one_at_a_time cstart tr w -> c_procs w k = Off ->
  Forall (item_ok traceOpts) its -> value_of traceOpts its "mask" (Some s) -> value_of traceOpts its "selection" None ->
  Match_Spec.number s v -> 0 <= v < two32 ->
  exists i w' h, zlen h = 8 /\ is_hex h v /\
   crun w (LTrace k (line its tail) :: repeat (LStep k) i ++ map (LText k) ts ++ [LEof k]) =
    Some (w', Prints k (str "Mask=0x" ++ h ++ [10]) :: SetsMask k v :: map (Prints k) ts ++ [Ends k 0]).
Proof.
  intros E H F V1 V2 N R. eapply trace_set; eauto. cbn [cmdTrace_mask]. unfold traceMask.
  assert (BL : blanks []) by (first [constructor | exists 0%nat; reflexivity | intros ? []]). assert (S := strtol_number [] s v [] BL N). cbn [app] in S. rewrite app_nil_r in S. rewrite S; [|unfold LONG_MAX, two32 in *; lia|exact Logic.I].
  cbn [fst]. unfold u32. rewrite Z.mod_small by exact R. reflexivity.
Qed.

(** ** What goes wrong *)
Definition steps (k : Z) (n : nat) : list clabel := repeat (LStep k) n.
Lemma run_exec (ok : cworld -> clabel -> Prop) w0 tr w ls : (forall w l, ok w l) -> cexecBy ok w0 tr w -> forall w' ob, crun w ls = Some (w', ob) -> cexecBy ok w0 (tr ++ ob) w'.
Proof.
  intros Ok E. revert tr w E. induction ls as [|l ls IH]; intros tr w E w' ob R; cbn [crun] in R.
  - injection R as <- <-. rewrite app_nil_r. exact E.
  - destruct (cstep w l) as [[w1 o1]|] eqn:S; [|discriminate]. destruct (crun w1 ls) as [[w2 o2]|] eqn:R2; [|discriminate]. injection R as <- <-.
    rewrite app_assoc. eapply IH; [|exact R2]. eapply cx_step; [exact E|apply Ok|exact S].
Qed.
(** Two load-balancers find no object; the first is at work when the second makes it again. *)
Lemma both_make : exists tr w, cexecBy anything cstart tr w /\ In (Crashes 1) tr.
Proof.
  assert (C : exists w ob, crun cstart (LLb 1 :: LLb 2 :: steps 1 1 ++ steps 2 1 ++ steps 1 4 ++ steps 2 1 ++ [LLook 1]) = Some (w, ob) /\ In (Crashes 1) ob).
  { do 2 eexists. split; [reflexivity|]. cbn. tauto. }
  destruct C as (w & ob & R & I). exists ob, w. split; [|exact I]. change ob with ([] ++ ob). eapply run_exec; [intros; exact Logic.I|apply cx_nil|exact R].
Qed.
(** The level an operator has set and seen is lost. *)
Lemma level_lost : exists tr w, cexecBy anything cstart tr w /\
  exists t1 t2 t3, tr = t1 ++ SetsLevel 2 7 :: t2 ++ Prints 2 (str "loglevel=7" ++ [10]) :: t3 ++ [SeesLevel 1 5] /\ Forall (fun o => forall k v, o <> SetsLevel k v) (t2 ++ t3).
Proof.
  assert (C : exists w, crun cstart (LLb 1 :: steps 1 1 ++ LLevel 2 [str "7"] :: steps 2 7 ++ steps 1 4 ++ [LLook 1]) = Some (w, [SetsLevel 2 7; Prints 2 (str "loglevel=7" ++ [10]); Ends 2 0; SeesLevel 1 5])).
  { eexists. reflexivity. }
  destruct C as (w & R). exists [SetsLevel 2 7; Prints 2 (str "loglevel=7" ++ [10]); Ends 2 0; SeesLevel 1 5], w. split; [change (cexecBy anything cstart ([] ++ [SetsLevel 2 7; Prints 2 (str "loglevel=7" ++ [10]); Ends 2 0; SeesLevel 1 5]) w); eapply run_exec; [intros; exact Logic.I|apply cx_nil|exact R]|].
  exists [], [], [Ends 2 0]. split; [reflexivity|]. constructor; [discriminate|constructor].
Qed.
(** trace without a server: status 1, and the mask stays. *)
Lemma mask_stays tr w k its tail ms sel x : cexecBy one_at_a_time cstart tr w -> c_procs w k = Off ->
  Forall (item_ok traceOpts) its -> value_of traceOpts its "mask" ms -> value_of traceOpts its "selection" sel ->
  cmdTrace_mask ms sel = Ok x ->
  exists i w' h, crun w (LTrace k (line its tail) :: repeat (LStep k) i ++ [LFails k]) =
    Some (w', [Prints k (str "Mask=0x" ++ h ++ [10]); SetsMask k x; Ends k 1]) /\
   forall j, c_procs w' j = Serve -> cstep w' (LMask j) = Some (w', [SeesMask j x]).
Proof.
  intros E H F V1 V2 X. destruct (one_ok _ _ E) as (_ & P).
  destruct (begin_open w k (str "Mask=0x" ++ hex8 x ++ [10]) (JTrace x) _ _ P H) as (w1 & i & w2 & B & C & (O & Q)).
  exists (i + 1)%nat. eexists. exists (hex8 x). split.
  - cbn [crun cstep]. rewrite (trace_line its tail ms sel x F V1 V2 X), B.
    rewrite repeat_app, <- app_assoc. erewrite (crun_app w1 _ _ w2 []); [reflexivity|exact C|].
    cbn [repeat crun cstep mapped app] in *. unfold pstep at 1. rewrite Q. unfold access. rewrite O. cbn [c_procs]. rewrite pupd_same. reflexivity.
  - intros j Hj. cbn [cstep]. rewrite Hj. unfold access. cbn [at_state c_obj]. reflexivity.
Qed.
