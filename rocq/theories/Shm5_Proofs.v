(** What show prints, and that it says what it should. *)
From Coq Require Import String Permutation.
From Verif Require Import Base Lists Cstr_Model Rangeset_Model Rangeset_Spec Rangeset2_Proofs Match_Proofs Maglev_Model Config_Model
  Maglev_Spec Config_Spec Config_Proofs MaglevThms_Proofs Shm_Model Shm_Spec Shm_Proofs Shm2_Proofs Shm3_Proofs Shm4_Proofs.

Lemma first_skip A (l : list A) k i x : 0 <= i -> znth l i = Some x -> firstn (S k) (skipn (Z.to_nat i) l) = x :: firstn k (skipn (Z.to_nat (i + 1)) l).
Proof.
  intros I Z. unfold znth in Z. destruct (i <? 0); [discriminate|]. replace (Z.to_nat (i + 1)) with (S (Z.to_nat i)) by lia.
  revert Z. generalize (Z.to_nat i). clear. intros n. revert l. induction n as [|n IH]; intros [|y l] Z; cbn [nth_error] in Z; try discriminate.
  - inversion Z; subst. reflexivity.
  - cbn [skipn]. apply IH. exact Z.
Qed.

Section Show.
Context (f : list Z) (own : Z) (s : mag) (HF : holds f own s) (SZ : sized own s).
Notation vw := (v (mM s) (mN s)).
Lemma load_look i x : znth (mlookup s) i = Some x -> lds f (lk vw i) = Ok x.
Proof.
  intros Z. apply (proj1 (holds_iff _ _ _)) in HF. destruct HF as (len & rest & -> & S). pose proof (fine_of own s S SZ) as F.
  destruct SZ as (_ & _ & _ & _ & Z5 & Z6 & Z7). apply (get_look own len (mM s) (mN s) (mperm s) rest Z5 Z6 Z7 _ _ _ _ F). apply aget_ok. exact Z.
Qed.
Lemma load_act i x : znth (mactive s) i = Some x -> lds f (ac vw i) = Ok x.
Proof.
  intros Z. apply (proj1 (holds_iff _ _ _)) in HF. destruct HF as (len & rest & -> & S). pose proof (fine_of own s S SZ) as F.
  destruct SZ as (_ & _ & _ & _ & Z5 & Z6 & Z7). destruct S as (S1 & S2 & S3 & S4).
  apply (get_act own len (mM s) (mN s) (mperm s) rest Z5 Z6 Z7 S2 S3 _ _ _ _ F). apply aget_ok. exact Z.
Qed.
Lemma load_own : lds f 0 = Ok own.
Proof.
  apply (proj1 (holds_iff _ _ _)) in HF. destruct HF as (len & rest & -> & S). unfold mD, D. change 0 with (4 * 0) at 1.
  apply lds_word; [reflexivity|]. apply SZ.
Qed.
Lemma shaped_s : shaped s.
Proof. apply (proj1 (holds_iff _ _ _)) in HF. destruct HF as (len & rest & _ & S). exact S. Qed.
Lemma shows_lookup : forall k i, 0 <= i -> i + Z.of_nat k <= mM s ->
  show_lookup vw f k i = Ok (flat_map (fun x => str " " ++ int_text x) (firstn k (skipn (Z.to_nat i) (mlookup s)))).
Proof.
  destruct shaped_s as (S1 & _). induction k as [|k IH]; intros i I K; cbn [show_lookup]; [reflexivity|].
  destruct (znth_in_range _ (mlookup s) i) as (x & X); [lia|]. rewrite (load_look i x X). cbn [obind]. rewrite IH by lia. cbn [obind].
  rewrite (first_skip _ _ k i x I X). cbn [flat_map]. rewrite <- app_assoc. reflexivity.
Qed.
Lemma shows_active : forall k i, 0 <= i -> i + Z.of_nat k <= mN s ->
  show_active vw f k i = Ok (active_text (actives (firstn k (skipn (Z.to_nat i) (mactive s))) i)).
Proof.
  destruct shaped_s as (_ & _ & _ & S4). induction k as [|k IH]; intros i I K; cbn [show_active]; [reflexivity|].
  destruct (znth_in_range _ (mactive s) i) as (x & X); [lia|]. rewrite (load_act i x X). cbn [obind]. rewrite IH by lia. cbn [obind].
  rewrite (first_skip _ _ k i x I X). cbn [actives]. destruct (0 <=? x) eqn:E; [|reflexivity]. cbn [app active_text].
  unfold sdec. destruct (x <? 0) eqn:E1; [lia|]. destruct (i <? 0) eqn:E2; [lia|]. reflexivity.
Qed.
Lemma shows name : mM s < 2 ^ 31 -> mN s < 2 ^ 31 ->
  cmdShow name f = Ok (show_text name own (mM s) (mN s) (firstn 25 (mlookup s)) (actives (mactive s) 0)).
Proof.
  intros MB NB. unfold cmdShow. rewrite load_own. cbn [obind]. rewrite (holds_view f own s HF SZ). cbn [obind].
  pose proof SZ as (_ & _ & _ & _ & Z5 & Z6 & Z7). destruct (view_fields (mM s) (mN s) Z5 Z6 Z7) as (-> & -> & _).
  pose proof shaped_s as (S1 & S2 & S3 & S4).
  rewrite shows_lookup by lia. cbn [obind]. rewrite shows_active by lia. cbn [obind Z.to_nat skipn].
  replace (firstn (Z.to_nat (mN s)) (mactive s)) with (mactive s) by (symmetry; apply firstn_all2; unfold zlen in S4; lia).
  replace (firstn (Z.to_nat (Z.min 25 (mM s))) (mlookup s)) with (firstn 25 (mlookup s)).
  2:{ destruct (Z.le_gt_cases 25 (mM s)); [rewrite Z.min_l by lia; reflexivity|]. rewrite Z.min_r by lia. unfold zlen in S1. rewrite !firstn_all2 by lia. reflexivity. }
  rewrite (s32_small (mM s)), (s32_small (mN s)) by lia. unfold sdec.
  destruct (mM s <? 0) eqn:E1; [lia|]. destruct (mN s <? 0) eqn:E2; [lia|]. reflexivity.
Qed.
End Show.

(** The text determines what was shown *)
Definition hdn (P : Z -> Prop) (r : list Z) : Prop := match r with [] => True | c :: _ => ~ P c end.
Lemma span (P : Z -> Prop) : forall a a' r r', Forall P a -> Forall P a' -> hdn P r -> hdn P r' -> a ++ r = a' ++ r' -> a = a' /\ r = r'.
Proof.
  induction a as [|x a IH]; intros [|x' a'] r r' FA FA' H H' E; cbn [app] in E.
  - auto.
  - subst r. cbn in H. exfalso. apply H. exact (Forall_inv FA').
  - subst r'. cbn in H'. exfalso. apply H'. exact (Forall_inv FA).
  - injection E as -> E. destruct (IH a' r r' (Forall_inv_tail FA) (Forall_inv_tail FA') H H' E) as (-> & ->). auto.
Qed.
Definition numc (c : Z) : Prop := c = 45 \/ 48 <= c <= 57.
Lemma dec_inj a b : is_u32 a -> is_u32 b -> dec a = dec b -> a = b.
Proof. intros A B E. destruct (dec_ok a A) as (_ & _ & E1 & _). destruct (dec_ok b B) as (_ & _ & E2 & _). congruence. Qed.
Lemma dec_num a : is_u32 a -> Forall numc (dec a).
Proof. intros A. destruct (dec_ok a A) as (_ & F & _). revert F. apply Forall_impl. unfold numc. auto. Qed.
Lemma int_num x : int32 x -> Forall numc (int_text x).
Proof.
  unfold int32, int_text. intros X. destruct (x <? 0) eqn:E; [constructor; [left; reflexivity|]|]; apply dec_num; unfold is_u32, UINT_MAX; lia.
Qed.
Lemma int_inj x y : int32 x -> int32 y -> int_text x = int_text y -> x = y.
Proof.
  unfold int32, int_text. intros X Y E. assert (DH : forall z t, is_u32 z -> 45 :: t <> dec z).
  { intros z t Z Q. destruct (dec_ok z Z) as (_ & F & _). rewrite <- Q in F. apply Forall_inv in F. lia. }
  destruct (x <? 0) eqn:EX, (y <? 0) eqn:EY.
  - injection E as E. apply dec_inj in E; unfold is_u32, UINT_MAX in *; lia.
  - exfalso. eapply DH; [|exact E]. unfold is_u32, UINT_MAX; lia.
  - exfalso. eapply DH; [|symmetry; exact E]. unfold is_u32, UINT_MAX; lia.
  - apply dec_inj in E; unfold is_u32, UINT_MAX in *; lia.
Qed.
Ltac nnum := cbn; unfold numc; lia.
Lemma lookup_inj : forall l l' r r', Forall int32 l -> Forall int32 l' ->
  flat_map (fun x => str " " ++ int_text x) l ++ 46 :: r = flat_map (fun x => str " " ++ int_text x) l' ++ 46 :: r' -> l = l' /\ r = r'.
Proof.
  induction l as [|x l IH]; intros [|y l'] r r' F F' E; cbn [flat_map app] in E.
  - injection E as ->. auto.
  - change (str " ") with [32] in E. cbn [app] in E. discriminate.
  - change (str " ") with [32] in E. cbn [app] in E. discriminate.
  - change (str " ") with [32] in E. cbn [app] in E. injection E as E. rewrite <- !app_assoc in E.
    apply (span numc) in E; [|apply int_num; exact (Forall_inv F)|apply int_num; exact (Forall_inv F')|destruct l; nnum|destruct l'; nnum].
    destruct E as (E1 & E2). apply int_inj in E1; [|exact (Forall_inv F)|exact (Forall_inv F')].
    destruct (IH l' r r' (Forall_inv_tail F) (Forall_inv_tail F') E2) as (-> & ->). subst. auto.
Qed.
Definition pair_ok (p : Z * Z) : Prop := is_u32 (fst p) /\ is_u32 (snd p).
Lemma active_inj : forall l l' r r', Forall pair_ok l -> Forall pair_ok l' -> active_text l ++ 10 :: r = active_text l' ++ 10 :: r' -> l = l' /\ r = r'.
Proof.
  induction l as [|(a, i) l IH]; intros [|(b, j) l'] r r' F F' E; cbn [active_text app] in E.
  - injection E as ->. auto.
  - change (str " ") with [32] in E. cbn [app] in E. discriminate.
  - change (str " ") with [32] in E. cbn [app] in E. discriminate.
  - change (str " ") with [32] in E. change (str "(") with [40] in E. change (str ")") with [41] in E. rewrite <- !app_assoc in E. cbn [app] in E. injection E as E.
    destruct (Forall_inv F) as (A1 & A2). destruct (Forall_inv F') as (B1 & B2). cbn [fst snd] in *.
    apply (span numc) in E; [|apply dec_num; auto|apply dec_num; auto|nnum|nnum]. destruct E as (E1 & E2). apply dec_inj in E1; auto. injection E2 as E2.
    apply (span numc) in E2; [|apply dec_num; auto|apply dec_num; auto|nnum|nnum]. destruct E2 as (E2 & E3). apply dec_inj in E2; auto. injection E3 as E3.
    destruct (IH l' r r' (Forall_inv_tail F) (Forall_inv_tail F') E3) as (-> & ->). subst. auto.
Qed.
Lemma show_inj name own own' M M' N N' l l' a a' : int32 own -> int32 own' -> is_u32 M -> is_u32 M' -> is_u32 N -> is_u32 N' -> Forall int32 l -> Forall int32 l' ->
  Forall pair_ok a -> Forall pair_ok a' -> show_text name own M N l a = show_text name own' M' N' l' a' -> own = own' /\ M = M' /\ N = N' /\ l = l' /\ a = a'.
Proof.
  intros O O' IM IM' IN IN' L L' A A'. unfold show_text. change (str "...") with [46; 46; 46]. change (str ", N=") with [44; 32; 78; 61].
  generalize (str "Shm: ") (str "  Fw: own=") (str "  Maglev: M=") (str "   Lookup:") (str "   Active:"). intros s1 s2 s3 s4 s5 E.
  do 4 apply app_inv_head in E. apply (span numc) in E; [|apply int_num; auto|apply int_num; auto|nnum|nnum]. destruct E as (E1 & E). apply int_inj in E1; auto.
  do 2 apply app_inv_head in E. apply (span numc) in E; [|apply dec_num; auto|apply dec_num; auto|nnum|nnum]. destruct E as (E2 & E). apply dec_inj in E2; auto.
  apply app_inv_head in E. apply (span numc) in E; [|apply dec_num; auto|apply dec_num; auto|nnum|nnum]. destruct E as (E3 & E). apply dec_inj in E3; auto.
  do 2 apply app_inv_head in E. cbn [app] in E. apply lookup_inj in E; auto. destruct E as (E4 & E).
  injection E as E. apply app_inv_head in E. apply active_inj in E; auto. destruct E as (E5 & _). auto.
Qed.

(** The pairs shown *)
Lemma actives_fws : forall a i, map fst (actives a i) = filter (fun fw => 0 <=? fw) a.
Proof. induction a as [|x a IH]; intros i; cbn; [reflexivity|]. destruct (0 <=? x); cbn; rewrite IH; reflexivity. Qed.
Lemma actives_in : forall a i fw k, In (fw, k) (actives a i) <-> 0 <= fw /\ i <= k /\ znth a (k - i) = Some fw.
Proof.
  induction a as [|x a IH]; intros i fw k.
  - cbn. unfold znth. split; [tauto|]. intros (_ & _ & H). destruct (k - i <? 0); [discriminate|]. destruct (Z.to_nat (k - i)); discriminate.
  - cbn [actives]. rewrite in_app_iff, IH. rewrite (znth_cons _ x a (k - i)). destruct (k - i =? 0) eqn:E.
    + split.
      * intros [H|(A & B & C)]; [|lia]. destruct (0 <=? x) eqn:EX; [|destruct H]. destruct H as [H|[]]. inversion H; subst. split; [lia|]. split; [lia|reflexivity].
      * intros (A & B & C). inversion C; subst. left. destruct (0 <=? fw) eqn:EX; [|lia]. left. f_equal. lia.
    + split.
      * intros [H|(A & B & C)]; [destruct (0 <=? x); [destruct H as [H|[]]; inversion H; lia|destruct H]|]. split; [auto|]. split; [lia|]. replace (k - i - 1) with (k - (i + 1)) by lia. exact C.
      * intros (A & B & C). right. split; [auto|]. split; [lia|]. replace (k - (i + 1)) with (k - i - 1) by lia. exact C.
Qed.

(** *** Compositions *)
Lemma init_sizes m n rand s : init_args m n rand -> cmdInit m n rand = Ok s -> 0 <= mM s < 2 ^ 31 /\ 0 <= mN s < 2 ^ 31.
Proof. intros IA H. destruct (init_facts _ _ _ _ IA H) as (_ & _ & _ & _ & A & B & C & _). destruct IA as (_ & D & _). lia. Qed.

Lemma file_lookup own m n garbage rs rand s0 f0 cs : init_args m n rand -> cmdInit m n rand = Ok s0 -> mM s0 <= 65536 -> int32 own ->
  file_size s0 <= 4 + zlen garbage -> file_size s0 < 2 ^ 31 -> winitCmd own m n garbage rs rand = Ok (f0, true) -> Forall cmd_ints cs ->
  exists f s vw, wrun_hist f0 cs = Ok f /\ reached m n rand cs s /\ holds f own s /\ map_view f = Ok vw /\
    (forall hash x, mag_lookup s hash = Ok x -> wread2 vw f f hash = Ok x) /\
    forall name, cmdShow name f = Ok (show_text name own (mM s) (mN s) (firstn 25 (mlookup s)) (actives (mactive s) 0)).
Proof.
  intros IA H HM OI GL SM W I. destruct (init_file own m n garbage rand s0 IA H OI GL SM) as (f & HF & SZ & A). specialize (A rs). rewrite W in A. destruct A as (<- & _).
  destruct (file_hist own m n rand s0 f0 cs IA H HM HF SZ I) as (f & s & WH & RE & HF' & SZ'). exists f, s, (v (mM s) (mN s)).
  split; [exact WH|]. split; [exact RE|]. split; [exact HF'|]. split; [apply (holds_view f own s); auto|]. split.
  - intros hash x L. apply (holds_read f f own s s); auto.
  - intros name. destruct (reached_facts _ _ _ _ _ IA RE) as (_ & _ & _ & _ & MB & NB & NM & _). apply (shows f own s HF' SZ'); lia.
Qed.

Lemma readers_file own m n garbage rs rand s0 f0 f1 f2 hash : init_args m n rand -> cmdInit m n rand = Ok s0 -> mM s0 <= 65536 -> int32 own ->
  file_size s0 <= 4 + zlen garbage -> file_size s0 < 2 ^ 31 -> winitCmd own m n garbage rs rand = Ok (f0, true) ->
  fcreach f0 f1 -> fcreach f1 f2 -> 0 <= hash ->
  exists s2 vw x, holds f2 own s2 /\ map_view f0 = Ok vw /\ map_view f1 = Ok vw /\ wread2 vw f1 f2 hash = Ok x /\ (x < 0 \/ In x (mactive s2)).
Proof.
  intros IA H HM OI GL SM W C1 C2 HH. destruct (init_file own m n garbage rand s0 IA H OI GL SM) as (f & HF & SZ & A). specialize (A rs). rewrite W in A. destruct A as (<- & _).
  destruct (file_readers own m n rand s0 f0 f1 f2 hash IA H HM HF SZ C1 C2 HH) as (s1 & s2 & vw & x & _ & A2 & _ & _ & A5 & A6 & A7 & A8). exists s2, vw, x. auto.
Qed.

Lemma cs_ints : forall cs, Forall (fun c => match c with SAct fws | SDeact fws => Forall int32 fws end) cs -> Forall cmd_ints (map to_cmd cs).
Proof. induction 1 as [|c cs C F IH]; constructor; auto. destruct c; exact C. Qed.
Lemma show_set own m n garbage rs rand s0 f0 cs : init_args m n rand -> cmdInit m n rand = Ok s0 -> mM s0 <= 65536 -> int32 own ->
  file_size s0 <= 4 + zlen garbage -> file_size s0 < 2 ^ 31 -> winitCmd own m n garbage rs rand = Ok (f0, true) ->
  Forall (fun c => match c with SAct fws | SDeact fws => Forall int32 fws end) cs ->
  exists f lookup pairs, wrun_hist f0 (map to_cmd cs) = Ok f /\
    (forall name, cmdShow name f = Ok (show_text name own (mM s0) n lookup pairs)) /\
    Permutation (map fst pairs) (s_hist n cs) /\ NoDup (map snd pairs) /\ (forall p, In p pairs -> 0 <= snd p < n) /\ NoDup (map fst pairs).
Proof.
  intros IA H HM OI GL SM W I. destruct (file_lookup own m n garbage rs rand s0 f0 (map to_cmd cs) IA H HM OI GL SM W (cs_ints _ I)) as (f & s & vw & WH & RE & HF & MV & _ & SH).
  destruct (set_semantics m n rand cs s IA RE) as (ND & PE & _).
  assert (EM : mM s = mM s0 /\ mN s = n /\ zlen (mactive s) = n).
  { destruct RE as (s0' & H' & RH). assert (s0' = s0) by congruence. subst s0'. destruct (init_facts _ _ _ _ IA H) as (W1 & W2 & W3 & _ & _ & W6 & _).
    destruct (run_hist_wf _ _ _ W1 W2 RH) as (V1 & _ & V3 & V4 & _). rewrite V3, V4. split; auto. split; auto. pose proof (wf_active _ V1). lia. }
  destruct EM as (EM & EN & AL). rewrite EM, EN in SH. exists f, (firstn 25 (mlookup s)), (actives (mactive s) 0). split; [exact WH|]. split; [exact SH|].
  rewrite actives_fws. split; [symmetry; exact PE|]. split; [|split].
  - clear. generalize 0 at 1. generalize (mactive s). clear. assert (G : forall a i, NoDup (map snd (actives a i)) /\ forall k, In k (map snd (actives a i)) -> i <= k).
    { induction a as [|x a IH]; intros i; cbn [actives map]; [split; [constructor|intros k []]|]. destruct (IH (i + 1)) as (A & B). destruct (0 <=? x); cbn [app map snd].
      - split; [constructor; [intros Q; apply B in Q; lia|exact A]|]. intros k [<-|K]; [lia|]. apply B in K. lia.
      - split; [exact A|]. intros k K. apply B in K. lia. }
    intros a i. apply G.
  - intros (fw, k) P. cbn [snd]. apply actives_in in P. destruct P as (_ & K & Z). apply znth_some_range in Z. lia.
  - apply (Permutation_NoDup PE ND).
Qed.
