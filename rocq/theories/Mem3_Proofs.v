(** Proofs about the memory of requests and of the server (C85). *)
From Coq Require Import String Permutation.
From Verif Require Import Base Lists Cstr_Model Util_Model Util_Proofs Rangeset_Spec
  Flow_Model Flow_Spec Remote_Model Remote_Proofs Mem_Model Mem_Spec Mem_Proofs Mem2_Proofs.

(** ** Requests *)
Definition ctags : list tag := [TText; TText; TText; TArgv; TText; TText; TArgv; TArgv; TArgv].
Fixpoint ablocks (l : list Z) (t : list tag) : list (Z * tag) :=
  match l, t with p :: l', u :: t' => blk p u ++ ablocks l' t' | _, _ => [] end.
Definition cblocks (c : mcmd) : list (Z * tag) := ablocks (d_adr c) ctags.

Lemma free_list ps : forall ts m l, length ps = length ts -> own m (ablocks ps ts ++ l) -> exists m', freeList m ps = Ok m' /\ own m' l.
Proof.
  induction ps as [|p ps IH]; intros [|t ts] m l E O; cbn [length] in E; try discriminate; cbn [freeList ablocks] in *; [eauto|].
  rewrite <- app_assoc in O. destruct (own_free _ _ _ _ O) as (m1 & -> & O1). cbn [obind]. apply (IH ts); auto.
Qed.
Lemma free_cmd m c l : length (d_adr c) = 9%nat -> own m (cblocks c ++ l) -> exists m', freeFlowCmd m c = Ok (m', cmd0) /\ own m' l.
Proof. intros E O. unfold freeFlowCmd. destruct (free_list _ ctags _ _ E O) as (m' & -> & O'). cbn [obind]. eauto. Qed.

(** Setting a field that is NULL *)
Lemma set_at ps : forall ts i p t, length ps = length ts -> nth_error ts i = Some t -> nth i ps 0 = 0 ->
  Permutation (ablocks (setAt ps i p) ts) (blk p t ++ ablocks ps ts) /\ length (setAt ps i p) = length ps.
Proof.
  induction ps as [|q ps IH]; intros [|u ts] i p t E N Z0; cbn [length] in E; try discriminate.
  - destruct i; discriminate.
  - destruct i as [|i]; cbn [nth_error nth] in *.
    + injection N as ->. subst q. unfold setAt. cbn [firstn skipn app ablocks length]. split; auto.
    + destruct (IH ts i p t ltac:(lia) N Z0) as (P & LE). change (setAt (q :: ps) (S i) p) with (q :: setAt ps i p).
      cbn [ablocks length]. split; [|lia]. apply skip_app. exact P.
Qed.

Lemma field_tag f i d : field f = Some (i, d) -> nth_error ctags i = Some (match d with None => TText | Some _ => TArgv end) /\ match d with Some d => d <> [] | None => True end.
Proof.
  unfold field. repeat match goal with |- context [if ?b then _ else _] => destruct b end; try discriminate; intros H; inversion H; subst; (split; [reflexivity|first [exact Logic.I|discriminate]]).
Qed.

Lemma argv_block m l s d : d <> [] -> own m l -> exists p m', argvBlock m s d = Ok (p, m') /\ own m' (blk p TArgv ++ l).
Proof.
  intros ND O. unfold argvBlock. destruct s as [|c s]; [exists 0, m; auto|].
  destruct (malloc m TText) as [q m1] eqn:E1. destruct (own_alloc _ _ _ _ _ O E1) as (O1 & _).
  destruct (mkargv_ok (c :: s) d ND) as (r & -> & _). cbn [obind].
  destruct (own_free1 _ _ _ _ O1) as (m2 & -> & O2). cbn [obind]. destruct r as [r|]; [|exists 0, m2; auto].
  destruct (malloc m2 TArgv) as [p m3] eqn:E3. destruct (own_alloc _ _ _ _ _ O2 E3) as (O3 & P). exists p, m3. split; auto.
  rewrite blk_pos by auto. exact O3.
Qed.

Lemma field_ok m l c f a : length (d_adr c) = 9%nat -> own m (cblocks c ++ l) -> exists v m' c', set_field (d_val c) f a = Ok v /\
  setField m c f a = Ok (m', c') /\ d_val c' = v /\ length (d_adr c') = 9%nat /\ own m' (cblocks c' ++ l).
Proof.
  intros LE O. destruct (set_field_ok (d_val c) f a) as (v & EV). exists v. unfold setField. rewrite EV. cbn [obind].
  destruct (field f) as [[i d]|] eqn:EF; [|exists m, (mkMC v (d_adr c)); auto].
  destruct (field_tag _ _ _ EF) as (ET & ND). destruct (Z.eqb_spec (nth i (d_adr c) 0) 0) as [Z0|NZ]; [|exists m, (mkMC v (d_adr c)); auto 6].
  assert (K : exists p m', match d with None => Ok (malloc m TText) | Some d => argvBlock m a d end = Ok (p, m') /\
     own m' (blk p (match d with None => TText | Some _ => TArgv end) ++ cblocks c ++ l)).
  { destruct d as [d|]; [apply argv_block; auto|]. destruct (malloc m TText) as [p m1] eqn:E1.
    destruct (own_alloc _ _ _ _ _ O E1) as (O1 & P). exists p, m1. split; auto. rewrite blk_pos by auto. exact O1. }
  destruct K as (p & m' & -> & O'). cbn [obind]. destruct (set_at (d_adr c) ctags i p _ LE ET Z0) as (P & LE2).
  exists m', (mkMC v (setAt (d_adr c) i p)). split; auto. split; auto. split; auto. split; [cbn [d_adr]; lia|].
  eapply own_perm; [exact O'|]. unfold cblocks at 2. cbn [d_adr]. rewrite P, app_assoc. reflexivity.
Qed.

Lemma read_ok fuel : forall s m l c r, length (d_adr c) = 9%nat -> own m (cblocks c ++ l) -> read_loop fuel (d_val c) s = Ok r ->
  exists m' c', readLoop fuel m c s = Ok (m', c', match r with None => false | Some _ => true end) /\
    length (d_adr c') = 9%nat /\ own m' (cblocks c' ++ l) /\ forall v rest, r = Some (v, rest) -> d_val c' = v.
Proof.
  induction fuel as [|fuel IH]; intros s m l c r LE O R; destruct s as [|b s]; cbn [readLoop read_loop] in *; try discriminate.
  1,2: injection R as <-; destruct (free_cmd _ _ _ LE O) as (m' & -> & O'); cbn [obind]; exists m', cmd0;
    split; [reflexivity|split; [reflexivity|split; [exact O'|discriminate]]].
  destruct (fgets (Z.to_nat (MAX_CMD_LINE - 1)) (b :: s)) as [line rest].
  destruct (prefix (str "eoc:") (trim_nl (cstring line))).
  { injection R as <-. exists m, c. split; auto. split; auto. split; auto. intros v r [= <- _]. auto. }
  destruct (split_at 58 (trim_nl (cstring line))) as [[f a]|].
  - destruct (field_ok m l c f a LE O) as (v & m1 & c1 & E1 & -> & EV & LE1 & O1). rewrite E1 in R. cbn [obind] in *.
    subst v. apply (IH rest m1 l c1 r LE1 O1 R).
  - injection R as <-. destruct (free_cmd _ _ _ LE O) as (m' & -> & O'). cbn [obind]. exists m', cmd0.
    split; [reflexivity|split; [reflexivity|split; [exact O'|discriminate]]].
Qed.

(** ** The server *)
Definition fblocks (f : option (Z * Z)) : list (Z * tag) := match f with None => [] | Some (b, d) => [(b, TFile); (d, TConn)] end.
Lemma close_ok m f l : own m (fblocks f ++ l) -> exists m', closeStream m f = Ok m' /\ own m' l.
Proof.
  destruct f as [[b d]|]; cbn [fblocks closeStream app]; intros O; [|eauto].
  destruct (own_free1 _ _ _ _ O) as (m1 & -> & O1). cbn [obind]. destruct (own_free1 _ _ _ _ O1) as (m2 & -> & O2). eauto.
Qed.

Section Server.
Variables (L : libc) (sort : list mflow -> list mflow) (calls : flowcmd -> list mop).
Hypothesis Q : qsort_ok (sort_nodes L).
Hypothesis SP : permutes sort.

Definition vinv (v : server) (now : list fargs) (lost : Z) : Prop :=
  length (d_adr (v_cmd v)) = 9%nat /\ exists lb, zlen lb = lost /\ Forall (fun b => snd b = TConn) lb /\
  sinv (v_mem v) (v_set v) now (fblocks (v_in v) ++ fblocks (v_out v) ++ cblocks (v_cmd v) ++ lb).

Lemma sinv_perm m s now l l' : sinv m s now l -> Permutation l l' -> sinv m s now l'.
Proof.
  intros ((n & LN & O) & K) P. split; [|exact K]. exists n. split; auto. eapply own_perm; [exact O|]. apply Permutation_app_head. auto.
Qed.
(** What only concerns other blocks *)
Lemma sinv_own m s now l : sinv m s now l -> exists n, own m (l ++ sblocks s n) /\ forall m' l', own m' (l' ++ sblocks s n) -> sinv m' s now l'.
Proof.
  intros ((n & LN & O) & K). exists n. split; [eapply own_perm; [exact O|apply Permutation_app_comm]|].
  intros m' l' O'. split; [|exact K]. exists n. split; auto. eapply own_perm; [exact O'|apply Permutation_app_comm].
Qed.

Lemma serve_inv v k now lost : vinv v now lost -> Forall safe_call (asked calls k) -> exists v', serve L sort calls v k = Ok v' /\
  vinv v' (effect L now (asked calls k)) (lost + (if loses k then 1 else 0)).
Proof.
  intros (LE & lb & LL & FL & I) SC. destruct (sinv_own _ _ _ _ I) as (n & O & BACK). unfold serve.
  rewrite <- !app_assoc in O. destruct (close_ok _ _ _ O) as (m1 & -> & O1). cbn [obind].
  destruct (close_ok _ _ _ O1) as (m2 & -> & O2). cbn [obind]. unfold asked, loses, request in *.
  destruct (n_accept k); cbn [negb andb] in *.
  2:{ eexists. split; [reflexivity|]. split; [exact LE|]. exists lb. split; [lia|]. split; auto. cbn. apply BACK. rewrite <- app_assoc. exact O2. }
  destruct (malloc m2 TConn) as [cd m3] eqn:E3. destruct (own_alloc _ _ _ _ _ O2 E3) as (O3 & _).
  destruct (n_in k); cbn [negb] in *.
  2:{ destruct (own_free1 _ _ _ _ O3) as (m4 & -> & O4). cbn [obind].
      eexists. split; [reflexivity|]. split; [exact LE|]. exists lb. split; [lia|]. split; auto. cbn. apply BACK. rewrite <- app_assoc. exact O4. }
  destruct (malloc m3 TFile) as [b m4] eqn:E4. destruct (own_alloc _ _ _ _ _ O3 E4) as (O4 & _).
  assert (O5 : own m4 (cblocks (v_cmd v) ++ (b, TFile) :: (cd, TConn) :: lb ++ sblocks (v_set v) n)).
  { eapply own_perm; [exact O4|]. rewrite <- ?app_assoc. apply (Permutation_app_swap_app [(b, TFile); (cd, TConn)]). }
  destruct (free_cmd _ _ _ LE O5) as (m5 & -> & O6). cbn [obind].
  destruct (readFlowCmd_total (n_text k)) as (r & ER). unfold readCmd.
  destruct (read_ok (length (n_text k)) (n_text k) m5 ((b, TFile) :: (cd, TConn) :: lb ++ sblocks (v_set v) n) cmd0 r eq_refl O6 ER) as (m6 & c & -> & LC & O7 & VC).
  cbn [obind]. rewrite ER in *.
  assert (I7 : sinv m6 (v_set v) now ((b, TFile) :: (cd, TConn) :: cblocks c ++ lb)).
  { apply BACK. eapply own_perm; [exact O7|]. cbn [app]. rewrite <- app_assoc. symmetry. apply (Permutation_app_swap_app [(b, TFile); (cd, TConn)]). }
  destruct r as [[w rest]|]; cbn [negb].
  2:{ eexists. split; [reflexivity|]. split; [exact LC|]. exists lb. split; [lia|]. split; auto. }
  rewrite (VC w rest eq_refl) in *. clear VC. destruct (c_action w) as [act|] eqn:EA.
  2:{ eexists. split; [reflexivity|]. split; [exact LC|]. exists lb. split; [lia|]. split; auto. }
  rewrite EA.
  assert (K : exists m7 out lb2, (if writes act then openOut m6 k else (m6, None)) = (m7, out) /\ Forall (fun b => snd b = TConn) lb2 /\
     zlen lb2 = lost + (if writes act && n_dup k && negb (n_out k) then 1 else 0) /\
     sinv m7 (v_set v) now ((b, TFile) :: (cd, TConn) :: fblocks out ++ cblocks c ++ lb2)).
  { destruct (writes act); cbn [andb]; [|exists m6, None, lb; split; auto; split; auto; split; [lia|exact I7]].
    unfold openOut. destruct (n_dup k); cbn [andb]; [|exists m6, None, lb; split; auto; split; auto; split; [lia|exact I7]].
    destruct (sinv_own _ _ _ _ I7) as (n' & O8 & BACK'). destruct (malloc m6 TConn) as [d m7] eqn:E7. destruct (own_alloc _ _ _ _ _ O8 E7) as (O9 & _).
    destruct (n_out k); cbn [negb].
    - destruct (malloc m7 TFile) as [b2 m8] eqn:E8. destruct (own_alloc _ _ _ _ _ O9 E8) as (O10 & _).
      exists m8, (Some (b2, d)), lb. split; auto. split; auto. split; [lia|]. apply BACK'. eapply own_perm; [exact O10|].
      cbn [fblocks app]. apply (Permutation_app_swap_app [(b2, TFile); (d, TConn)] [(b, TFile); (cd, TConn)] ((cblocks c ++ lb) ++ sblocks (v_set v) n')).
    - exists m7, None, ((d, TConn) :: lb). split; auto. split; [constructor; auto|]. split; [unfold zlen in *; cbn [length]; lia|].
      apply BACK'. eapply own_perm; [exact O9|]. cbn [fblocks app]. rewrite <- !app_assoc. cbn [app].
      apply (Permutation_app_swap_app [(d, TConn)] ([(b, TFile); (cd, TConn)] ++ cblocks c) (lb ++ sblocks (v_set v) n')). }
  destruct K as (m7 & out & lb2 & -> & FL2 & LL2 & I8).
  destruct (run_inv L sort Q SP (calls w) _ _ _ _ I8 SC) as (m8 & s8 & -> & I9). cbn [obind].
  eexists. split; [reflexivity|]. split; [exact LC|]. exists lb2. split; [exact LL2|]. split; [exact FL2|]. exact I9.
Qed.

Lemma effect_app ops : forall now r, effect L now (ops ++ r) = effect L (effect L now ops) r.
Proof. induction ops as [|o ops IH]; intros now r; cbn [app]; auto. rewrite effect_cons, IH, <- effect_cons. auto. Qed.
Lemma serves_inv ks : forall v now lost, vinv v now lost -> Forall safe_call (flat_map (asked calls) ks) -> exists v', serves L sort calls v ks = Ok v' /\
  vinv v' (effect L now (flat_map (asked calls) ks)) (lost + many loses ks).
Proof.
  induction ks as [|k ks IH]; intros v now lost I S; cbn [serves flat_map many] in *.
  - exists v. split; auto. replace (lost + 0) with lost by lia. auto.
  - apply Forall_app in S. destruct S as (S1 & S2). destruct (serve_inv _ _ _ _ I S1) as (v1 & -> & I1). cbn [obind].
    destruct (IH _ _ _ I1 S2) as (v2 & -> & I2). exists v2. split; auto. rewrite effect_app. rewrite <- Z.add_assoc in I2. exact I2.
Qed.
End Server.

(** ** Counting *)
Lemma many_app {A} (f : A -> bool) a b : many f (a ++ b) = many f a + many f b.
Proof. induction a; cbn [app many]; lia. Qed.
Lemma many_perm {A} (f : A -> bool) a b : Permutation a b -> many f a = many f b.
Proof. induction 1; cbn [many]; lia. Qed.
Lemma many_none {A} (f : A -> bool) l : Forall (fun x => f x = false) l -> many f l = 0.
Proof. induction 1 as [|x l H F IH]; cbn [many]; auto. rewrite H. lia. Qed.
Lemma many_conn l : Forall (fun b : Z * tag => snd b = TConn) l -> many is_conn (map snd l) = zlen l /\ many is_request (map snd l) = 0 /\ many is_stream (map snd l) = 0.
Proof. unfold zlen. induction 1 as [|x l H F IH]; cbn [map many length]; [cbn; lia|]. rewrite H. cbn [is_conn is_request is_stream]. lia. Qed.
Lemma many_nonneg {A} (f : A -> bool) l : 0 <= many f l.
Proof. induction l; cbn [many]; [lia|]. destruct (f a); lia. Qed.
Lemma many_cmd c : length (d_adr c) = 9%nat -> many is_conn (map snd (cblocks c)) = 0 /\ many is_request (map snd (cblocks c)) <= 9 /\ many is_stream (map snd (cblocks c)) = 0.
Proof.
  unfold cblocks. destruct c as [v l]. cbn [d_adr]. intros LE. do 9 (destruct l as [|? l]; [discriminate LE|]). destruct l; [|discriminate LE].
  cbn [ablocks ctags]. rewrite !app_nil_r, !map_app, !many_app.
  assert (B : forall p f t, many f (map snd (blk p t)) = if p =? 0 then 0 else if f t then 1 else 0).
  { intros p f t. unfold blk. destruct (p =? 0); cbn; [auto|]. lia. }
  rewrite !B. cbn [is_conn is_request is_stream]. repeat match goal with |- context [if ?b then _ else _] => destruct b end; lia.
Qed.
Lemma many_file f : many is_conn (map snd (fblocks f)) <= 1 /\ many is_request (map snd (fblocks f)) = 0 /\ many is_stream (map snd (fblocks f)) <= 1.
Proof. destruct f as [[b d]|]; cbn; lia. Qed.

Lemma server_memory L sort calls ks : libc_ok L -> permutes sort -> Forall safe_call (flat_map (asked calls) ks) ->
  exists v l r, serves L sort calls server0 ks = Ok v /\ held (v_mem v) (l ++ r) /\ clean (v_mem v) /\
    set_tags (map snd l) (effect L [] (flat_map (asked calls) ks)) /\
    zlen r <= many is_request (map snd r) + many is_stream (map snd r) + many is_conn (map snd r) /\
    many is_request (map snd r) <= 9 /\ many is_stream (map snd r) <= 2 /\
    many loses ks <= many is_conn (map snd r) <= many loses ks + 2.
Proof.
  intros (_ & Q & _) SP SC.
  assert (I0 : vinv server0 [] 0).
  { unfold server0. destruct (flowSetCreate mem0) as [s0 m0] eqn:E0. split; [reflexivity|]. exists []. split; auto. split; [constructor|].
    cbn [v_mem v_set v_in v_out v_cmd]. apply (create_inv _ _ _ _ own0 E0). }
  destruct (serves_inv L sort calls Q SP ks _ _ _ I0 SC) as (v & E & (LE & lb & LL & FL & I)).
  destruct (sinv_tags _ _ _ _ I) as (n & LN & H & C & P).
  exists v, (sblocks (v_set v) n), (fblocks (v_in v) ++ fblocks (v_out v) ++ cblocks (v_cmd v) ++ lb).
  split; auto. split; auto. split; auto. split; [exists n; auto|].
  destruct (many_conn _ FL) as (A1 & A2 & A3). destruct (many_cmd _ LE) as (B1 & B2 & B3).
  destruct (many_file (v_in v)) as (C1 & C2 & C3). destruct (many_file (v_out v)) as (D1 & D2 & D3).
  rewrite !map_app, !many_app. pose proof (many_nonneg is_conn (map snd (fblocks (v_in v)))). pose proof (many_nonneg is_conn (map snd (fblocks (v_out v)))).
  split; [|lia]. unfold zlen. rewrite <- (map_length snd), !map_app.
  assert (G : forall t, Forall (fun t => is_request t || is_stream t || is_conn t = true) t ->
     Z.of_nat (length t) <= many is_request t + many is_stream t + many is_conn t).
  { clear. induction 1 as [|t l H F IH]; cbn [length many]; [lia|]. destruct (is_request t), (is_stream t), (is_conn t); try discriminate; lia. }
  rewrite <- !many_app, <- !map_app. rewrite map_length, <- (map_length snd). apply G. rewrite !map_app. rewrite !Forall_app. split; [|split; [|split]].
  - destruct (v_in v) as [[? ?]|]; cbn; repeat constructor.
  - destruct (v_out v) as [[? ?]|]; cbn; repeat constructor.
  - clear -LE. unfold cblocks. destruct (v_cmd v) as [w a]. cbn [d_adr] in *.
    do 9 (destruct a as [|? a]; [discriminate LE|]). destruct a; [|discriminate LE]. cbn [ablocks ctags]. rewrite !map_app, !Forall_app.
    repeat split; unfold blk; try (destruct (_ =? 0)); cbn; repeat constructor.
  - clear -FL. induction FL as [|x l H F IH]; cbn; constructor; auto. rewrite H. auto.
Qed.

Lemma loses_none ks : Forall (fun k => n_dup k = true -> n_out k = true) ks -> many loses ks = 0.
Proof.
  intros F. apply many_none. eapply Forall_impl; [|exact F]. intros k H. cbv beta in H. unfold loses. destruct (request k) as [c|]; auto.
  destruct (c_action c) as [a|]; auto. destruct (writes a); auto. destruct (n_dup k); [|reflexivity]. rewrite (H eq_refl). reflexivity.
Qed.
Lemma server_bounded L sort calls ks : libc_ok L -> permutes sort -> Forall safe_call (flat_map (asked calls) ks) ->
  Forall (fun k => n_dup k = true -> n_out k = true) ks ->
  exists v l r, serves L sort calls server0 ks = Ok v /\ held (v_mem v) (l ++ r) /\ clean (v_mem v) /\
    set_tags (map snd l) (effect L [] (flat_map (asked calls) ks)) /\ zlen r <= 13.
Proof.
  intros LK SP SC F. destruct (server_memory L sort calls ks LK SP SC) as (v & l & r & E & H & C & T & A1 & A2 & A3 & A4).
  rewrite (loses_none _ F) in A4. exists v, l, r. repeat (split; auto). lia.
Qed.
Definition leak : conn := mkConn true true (cmdFlowList None) true false.
Lemma descriptors_leak L sort calls n : libc_ok L -> permutes sort -> (forall c, Forall safe_call (calls c)) ->
  exists ks v l, length ks = n /\ serves L sort calls server0 ks = Ok v /\ held (v_mem v) l /\ Z.of_nat n <= many is_conn (map snd l).
Proof.
  intros LK SP SC. exists (repeat leak n).
  destruct (server_memory L sort calls (repeat leak n) LK SP) as (v & l & r & E & H & C & T & A1 & A2 & A3 & A4).
  { apply Forall_forall. intros o K. apply in_flat_map in K. destruct K as (k & _ & K). unfold asked in K. destruct (request k); [|destruct K].
    specialize (SC f). rewrite Forall_forall in SC. auto. }
  exists v, (l ++ r). split; [apply repeat_length|]. split; auto. split; auto. rewrite map_app, many_app.
  pose proof (many_nonneg is_conn (map snd l)). assert (ML : many loses (repeat leak n) = Z.of_nat n).
  { clear. induction n; cbn [repeat many]; [auto|]. change (loses leak) with true. lia. }
  lia.
Qed.
