(** Proofs for C82: addresses, and the invariant of executions. *)
From Coq Require Import String.
From Verif Require Import Base Lists Cstr_Model Rangeset_Spec Util_Proofs Match_Proofs Fwmark_Model Fwmark_Proofs Opt_Model Addr_Model Addr_Spec.

(** ** parseAddress *)
Lemma after_app p s : after p (p ++ s) = Some s.
Proof.
  unfold after. rewrite firstn_app, firstn_all, Nat.sub_diag. cbn [firstn]. rewrite app_nil_r, streq_refl.
  rewrite skipn_app, skipn_all, Nat.sub_diag. reflexivity.
Qed.
Lemma after_some p s r : after p s = Some r -> s = p ++ r.
Proof.
  unfold after. destruct (streq _ p) eqn:E; [|discriminate]. intro H. injection H as <-. apply streq_eq in E. rewrite <- E at 1. symmetry. apply firstn_skipn.
Qed.
Lemma unix_parse N n : parseAddress N (str "unix:" ++ n) = if 128 <? 3 + zlen n + 1 then UB else Ok (Some ([1; 0; 0] ++ n)).
Proof. unfold parseAddress. rewrite after_app. reflexivity. Qed.
Lemma tcp_parse N t h p : tcp_text t h p ->
  parseAddress N t = if (atoi p <? 0) || (65535 <? atoi p) then Ok None else match n_gai N h p with None => Ok None | Some b => if 128 <? zlen b then UB else Ok (Some b) end.
Proof.
  intros [(-> & B)|(-> & B & C)]; unfold parseAddress.
  - change (str "tcp:[" ++ h ++ str "]:" ++ p) with (str "tcp:" ++ 91 :: h ++ 93 :: 58 :: p). rewrite after_app. unfold parseTcp.
    rewrite (split_at_app 93 h _ B). destruct ((atoi p <? 0) || (65535 <? atoi p)); reflexivity.
  - rewrite after_app. unfold parseTcp. change (str ":" ++ p) with (58 :: p).
    assert (S : split_at 58 (h ++ 58 :: p) = Some (h, p)) by (apply split_at_app; exact B).
    destruct h as [|c h'].
    + cbn [app] in *. rewrite S. destruct ((atoi p <? 0) || (65535 <? atoi p)); reflexivity.
    + assert (c <> 91) by (intros ->; exact (C h' eq_refl)). cbn [app] in *.
      assert (Q : match c with 91 => match split_at 93 (h' ++ 58 :: p) with Some (h, 58 :: p) => Some (h, p) | _ => None end | _ => split_at 58 (c :: h' ++ 58 :: p) end = Some (c :: h', p)).
      { rewrite S. destruct c as [|c|c]; try reflexivity. repeat (destruct c as [c|c|]; try reflexivity). contradiction. }
      match goal with |- match (match ?m with _ => _ end) with _ => _ end = _ => replace m with (Some (c :: h', p)) end.
      * destruct ((atoi p <? 0) || (65535 <? atoi p)); reflexivity.
Qed.
Lemma parse_inv N t a : parseAddress N t = Ok (Some a) ->
  (exists n, unix_text t n /\ zlen n <= 124 /\ a = [1; 0; 0] ++ n) \/ (exists h p, tcp_text t h p /\ n_gai N h p = Some a).
Proof.
  unfold parseAddress. destruct (after (str "tcp:") t) as [r|] eqn:E.
  - apply after_some in E. subst t. destruct (parseTcp (n_gai N) r) as [b|] eqn:P; [|discriminate]. destruct (128 <? zlen b); [discriminate|].
    intro H. injection H as <-. right. unfold parseTcp in P.
    assert (Q : forall h p, (if (atoi p <? 0) || (65535 <? atoi p) then None else n_gai N h p) = Some b -> n_gai N h p = Some b).
    { intros h p H. destruct ((atoi p <? 0) || (65535 <? atoi p)); [discriminate|exact H]. }
    destruct r as [|c r']; [discriminate|]. destruct (Z.eq_dec c 91) as [->|C].
    + destruct (split_at 93 r') as [[h q]|] eqn:S; [|discriminate]. destruct q as [|d q]; [discriminate|].
      destruct (Z.eq_dec d 58) as [->|D].
      * exists h, q. split; [|exact (Q _ _ P)]. left. destruct (split_at_prefix _ _ _ _ S) as (-> & B). split; [reflexivity|exact B].
      * exfalso. destruct d as [|d|d]; try discriminate. repeat (destruct d as [d|d|]; try discriminate). contradiction.
    + assert (P' : match split_at 58 (c :: r') with None => None | Some (h, p) => if (atoi p <? 0) || (65535 <? atoi p) then None else n_gai N h p end = Some b).
      { destruct c as [|c|c]; try exact P. repeat (destruct c as [c|c|]; try exact P). contradiction. }
      clear P. destruct (split_at 58 (c :: r')) as [[h p]|] eqn:S; [|discriminate]. exists h, p. split; [|exact (Q _ _ P')].
      right. destruct (split_at_prefix _ _ _ _ S) as (E & B). rewrite E. split; [reflexivity|]. split; [exact B|]. intros x ->. cbn [app] in E. congruence.
  - destruct (after (str "unix:") t) as [n|] eqn:E'; [|discriminate]. apply after_some in E'. subst t.
    destruct (Z.ltb_spec 128 (3 + zlen n + 1)); [discriminate|]. intro H'. injection H' as <-. left. exists n. split; [reflexivity|]. split; [lia|reflexivity].
Qed.
Lemma not_unix N a h p : net_ok N -> n_gai N h p = Some a -> isUnix a = false /\ zlen a <= 128.
Proof.
  intros (O & _) H. destruct (O h p a H) as (L & X). split; [|exact L]. unfold isUnix.
  destruct a as [|x [|y r]]; try reflexivity.
  - destruct x as [|x|x]; try reflexivity. destruct x; reflexivity.
  - destruct x as [|x|x]; try reflexivity. destruct x; try reflexivity. destruct y; try reflexivity. exfalso. exact (X r eq_refl).
Qed.
Lemma addr_parse N t a : net_ok N -> addr_of N t a -> parseAddress N t = Ok (Some a) /\ tooLong a = false.
Proof.
  intros K [(n & -> & L & ->)|(h & p & v & T & D & V & G)].
  - rewrite unix_parse. destruct (Z.ltb_spec 128 (3 + zlen n + 1)); [lia|]. split; [reflexivity|].
    unfold tooLong. cbn [isUnix app andb]. apply Z.ltb_ge. rewrite !zlen_cons' || unfold zlen in *. cbn [length]. lia.
  - destruct (atoi_dec p v D) as (E & V0); [lia|]. destruct (not_unix N a h p K G) as (U & L). rewrite (tcp_parse N t h p T), G, E.
    replace ((v <? 0) || (65535 <? v)) with false by lia. replace (128 <? zlen a) with false by lia. split; [reflexivity|]. unfold tooLong. rewrite U. reflexivity.
Qed.

(** ** The kernel's rules *)
Lemma unix_eq a b : isUnix a = true -> isUnix b = false -> streq a b = false.
Proof. intros A B. destruct (streq a b) eqn:E; [|reflexivity]. apply streq_eq in E. congruence. Qed.
Lemma clash_refl N a : net_ok N -> clash N a a = true.
Proof. intros (_ & C & _). unfold clash. destruct (isUnix a); cbn; [apply streq_refl|apply C]. Qed.
Lemma meets_refl N a : net_ok N -> meets N a a = true.
Proof. intros (_ & _ & C & _). unfold meets. destruct (isUnix a); cbn; [apply streq_refl|apply C]. Qed.
Lemma meets_clash N c a b : net_ok N -> meets N c a = true -> meets N c b = true -> clash N a b = true.
Proof.
  intros K A B. unfold meets in *. destruct (isUnix c) eqn:U; cbn [orb] in *.
  - apply streq_eq in A. apply streq_eq in B. subst. apply clash_refl. exact K.
  - destruct (isUnix a) eqn:Ua; [apply streq_eq in A; congruence|]. destruct (isUnix b) eqn:Ub; [apply streq_eq in B; congruence|].
    unfold clash. rewrite Ua, Ub. destruct K as (_ & _ & _ & K). exact (K c a b A B).
Qed.
Lemma meets_place N t t' a a' : net_ok N -> parseAddress N t = Ok (Some a) -> parseAddress N t' = Ok (Some a') -> meets N a a' = true -> same_place N t t'.
Proof.
  intros K P P' M. destruct (parse_inv _ _ _ P) as [(n & U & _ & ->)|(h & p & T & G)]; destruct (parse_inv _ _ _ P') as [(n' & U' & _ & ->)|(h' & p' & T' & G')].
  - left. exists n. split; [exact U|]. unfold meets in M. cbn [isUnix app orb] in M. apply streq_eq in M. injection M as ->. rewrite U, U'. reflexivity.
  - exfalso. destruct (not_unix N a' h' p' K G') as (X & _). unfold meets in M. cbn [isUnix app orb] in M. apply streq_eq in M. subst a'. cbn in X. discriminate.
  - exfalso. destruct (not_unix N a h p K G) as (X & _). unfold meets in M. rewrite X in M. cbn [isUnix app orb] in M. apply streq_eq in M. subst a. cbn in X. discriminate.
  - right. exists h, p, h', p', a, a'. repeat (split; [assumption|]). unfold meets in M. destruct (not_unix N a h p K G) as (X & _). destruct (not_unix N a' h' p' K G') as (X' & _).
    rewrite X, X' in M. exact M.
Qed.

(** ** Histories *)
Lemma running_app tr ob k s : running (tr ++ ob) k s = fold_left (running_step k s) ob (running tr k s).
Proof. apply fold_left_app. Qed.

(** ** The invariant *)
Definition thr_ok (N : net) (tr : list aev) (w : aworld) (k : Z) (s : srv) (x : tstate) : Prop :=
  match x with
  | NoThread => running tr k s = None
  | Begins t => running tr k s = Some t
  | Bound a => (exists t, running tr k s = Some t /\ parseAddress N t = Ok (Some a)) /\ In (mkSock k s a false) (a_socks w)
  | Serves a => (exists t, running tr k s = Some t /\ parseAddress N t = Ok (Some a)) /\ In (mkSock k s a true) (a_socks w)
  end.
Record inv (N : net) (tr : list aev) (w : aworld) : Prop := mkInv {
  i_thr : forall k f, a_thr w k = Some f -> forall s, thr_ok N tr w k s (f s);
  i_none : forall k, a_thr w k = None -> forall s, running tr k s = None;
  i_sock : forall x, In x (a_socks w) -> exists f, a_thr w (k_proc x) = Some f /\ f (k_srv x) = if k_listens x then Serves (k_addr x) else Bound (k_addr x);
  i_apart : ForallOrdPairs (fun x y => clash N (k_addr x) (k_addr y) = false) (a_socks w) }.

Lemma setThr_same f k v : setThr f k v k = v.
Proof. unfold setThr. rewrite Z.eqb_refl. reflexivity. Qed.
Lemma setThr_other f k v i : i <> k -> setThr f k v i = f i.
Proof. unfold setThr. intro H. destruct (Z.eqb_spec i k); [contradiction|reflexivity]. Qed.
Lemma srvEq_refl s : srvEq s s = true.
Proof. destruct s; reflexivity. Qed.
Lemma srvEq_eq a b : srvEq a b = true -> a = b.
Proof. destruct a, b; cbn; congruence. Qed.
Lemma setSrv_same f s v : setSrv f s v s = v.
Proof. unfold setSrv. rewrite srvEq_refl. reflexivity. Qed.
Lemma setSrv_other f s v x : x <> s -> setSrv f s v x = f x.
Proof. unfold setSrv. intro H. destruct (srvEq x s) eqn:E; [apply srvEq_eq in E; contradiction|reflexivity]. Qed.

Lemma pairs_filter A (R : A -> A -> Prop) p l : ForallOrdPairs R l -> ForallOrdPairs R (filter p l).
Proof.
  induction 1 as [|x l H F IH]; [constructor|]. cbn [filter]. destruct (p x); [|exact IH]. constructor; [|exact IH].
  rewrite Forall_forall in *. intros y Y. apply filter_In in Y. apply H, Y.
Qed.
Lemma pairs_map A (R : A -> A -> Prop) g l : (forall x y, In x l -> In y l -> R x y -> R (g x) (g y)) -> ForallOrdPairs R l -> ForallOrdPairs R (map g l).
Proof.
  intros G H. induction H as [|x l H F IH]; [constructor|]. cbn [map]. constructor.
  - rewrite Forall_forall in *. intros y Y. apply in_map_iff in Y. destruct Y as (z & <- & Z). apply G; [left; reflexivity|right; exact Z|exact (H z Z)].
  - apply IH. intros a b A' B'. apply G; right; assumption.
Qed.
Lemma pairs_two A (R : A -> A -> Prop) l x y : ForallOrdPairs R l -> In x l -> In y l -> x = y \/ R x y \/ R y x.
Proof. intros H X Y. destruct (ForallOrdPairs_In H x y X Y) as [E|[E|E]]; auto. Qed.

Definition ends_ev (k : Z) (ob : list aev) : Prop := ob = [Killed k] \/ ob = [Died k] \/ ob = [Crashed k].
Lemma running_ends tr k ob i s : ends_ev k ob -> running (tr ++ ob) i s = if i =? k then None else running tr i s.
Proof. intros [->|[->| ->]]; rewrite running_app; cbn [fold_left running_step]; rewrite Z.eqb_sym; reflexivity. Qed.
Lemma inv_gone N tr w k ob : inv N tr w -> ends_ev k ob -> inv N (tr ++ ob) (gone w k).
Proof.
  intros [T Z' S P] E. constructor.
  - intros i f H s. cbn [gone a_thr] in H. destruct (Z.eq_dec i k) as [->|D]; [rewrite setThr_same in H; discriminate|]. rewrite setThr_other in H by exact D.
    specialize (T i f H s). assert (R : running (tr ++ ob) i s = running tr i s) by (rewrite (running_ends tr k ob i s E); destruct (Z.eqb_spec i k); [contradiction|reflexivity]).
    unfold thr_ok in *. rewrite R.
    assert (F : forall a b, In (mkSock i s a b) (a_socks w) -> In (mkSock i s a b) (a_socks (gone w k))).
    { intros a b I. cbn [gone a_socks]. apply filter_In. split; [exact I|]. cbn [k_proc]. destruct (Z.eqb_spec i k); [contradiction|reflexivity]. }
    destruct (f s); try exact T; destruct T as (T1 & T2); split; try exact T1; apply F; exact T2.
  - intros i H s. rewrite (running_ends tr k ob i s E). destruct (Z.eqb_spec i k); [reflexivity|]. cbn [gone a_thr] in H. rewrite setThr_other in H by assumption. apply Z'. exact H.
  - intros x X. cbn [gone a_socks] in X. apply filter_In in X. destruct X as (X & K). destruct (S x X) as (f & F1 & F2). exists f. split; [|exact F2].
    cbn [gone a_thr]. rewrite setThr_other; [exact F1|]. intros E'. rewrite E', Z.eqb_refl in K. discriminate.
  - apply pairs_filter. exact P.
Qed.
Definition quiet (ob : list aev) : Prop := forall r k s, fold_left (running_step k s) ob r = r.
Lemma connects_quiet N w c t : quiet (connects N w c t).
Proof. intros r k s. unfold connects. destruct (parseAddress N t) as [[a|]| | |]; try reflexivity. destruct (find _ _); reflexivity. Qed.
Lemma inv_quiet N tr w ob : inv N tr w -> quiet ob -> inv N (tr ++ ob) w.
Proof.
  intros [T Z' S P] Q. assert (R : forall k s, running (tr ++ ob) k s = running tr k s) by (intros; rewrite running_app; apply Q). constructor.
  - intros k f H s. specialize (T k f H s). unfold thr_ok in *. rewrite R. exact T.
  - intros k H s. rewrite R. apply Z'. exact H.
  - exact S.
  - exact P.
Qed.
Lemma inv_begins N tr w k t f w' ob : inv N tr w -> begins w k t f = Some (w', ob) -> inv N (tr ++ ob) w'.
Proof.
  intros [T Z' S P] H. unfold begins in H. destruct (a_thr w k) as [g|] eqn:E; [discriminate|]. destruct t as [t|]; [|discriminate]. injection H as <- <-.
  assert (R : forall i s, running (tr ++ [Began k t f]) i s = if i =? k then match s with TraceServer => Some t | FlowServer => f end else running tr i s).
  { intros i s. rewrite running_app. cbn [fold_left running_step]. rewrite Z.eqb_sym. reflexivity. }
  constructor.
  - intros i g H s. cbn [a_thr] in H. destruct (Z.eq_dec i k) as [->|D].
    + rewrite setThr_same in H. injection H as <-. unfold thr_ok. rewrite R, Z.eqb_refl. destruct s; [reflexivity|]. destruct f; reflexivity.
    + rewrite setThr_other in H by exact D. specialize (T i g H s). unfold thr_ok in *. cbn [a_socks]. rewrite R. destruct (Z.eqb_spec i k); [contradiction|]. exact T.
  - intros i H s. cbn [a_thr] in H. destruct (Z.eq_dec i k) as [->|D]; [rewrite setThr_same in H; discriminate|]. rewrite setThr_other in H by exact D.
    rewrite R. destruct (Z.eqb_spec i k); [contradiction|]. apply Z'. exact H.
  - intros x X. destruct (S x X) as (g & G1 & G2). exists g. split; [|exact G2]. cbn [a_thr]. rewrite setThr_other; [exact G1|]. congruence.
  - exact P.
Qed.
Lemma inv_thread N tr w k s w' ob : inv N tr w -> threadStep N w k s = Some (w', ob) -> inv N (tr ++ ob) w'.
Proof.
  intros I H. unfold threadStep in H. destruct (a_thr w k) as [f|] eqn:E; [|discriminate].
  assert (TK := i_thr _ _ _ I k f E s). destruct (f s) as [|t|a|a] eqn:F; try discriminate.
  - destruct (parseAddress N t) as [[a|]| | |] eqn:A.
    2:{ injection H as <- <-. apply inv_gone; [exact I|right; left; reflexivity]. }
    2-4: injection H as <- <-; apply inv_gone; [exact I|right; right; reflexivity].
    destruct (tooLong a || _) eqn:B; injection H as <- <-; [apply inv_gone; [exact I|right; left; reflexivity]|].
    apply orb_false_iff in B. destruct B as (_ & B). rewrite app_nil_r. destruct I as [T Z' S P]. constructor.
    + intros i g H x. cbn [a_thr] in H. destruct (Z.eq_dec i k) as [->|D].
      * rewrite setThr_same in H. injection H as <-. destruct (srvEq x s) eqn:X.
        -- apply srvEq_eq in X. subst x. rewrite setSrv_same. cbn [thr_ok a_socks]. split; [exists t; split; assumption|left; reflexivity].
        -- rewrite setSrv_other by (intros ->; rewrite srvEq_refl in X; discriminate). specialize (T k f E x). unfold thr_ok in *. cbn [a_socks].
           destruct (f x); try exact T; destruct T as (T1 & T2); (split; [exact T1|right; exact T2]).
      * rewrite setThr_other in H by exact D. specialize (T i g H x). unfold thr_ok in *. cbn [a_socks].
        destruct (g x); try exact T; destruct T as (T1 & T2); (split; [exact T1|right; exact T2]).
    + intros i H x. cbn [a_thr] in H. destruct (Z.eq_dec i k) as [->|D]; [rewrite setThr_same in H; discriminate|]. rewrite setThr_other in H by exact D. apply Z'. exact H.
    + intros x [<-|X]; cbn [k_proc k_srv k_listens k_addr a_thr].
      * exists (setSrv f s (Bound a)). rewrite setThr_same, setSrv_same. split; reflexivity.
      * destruct (S x X) as (g & G1 & G2). destruct (Z.eq_dec (k_proc x) k) as [D|D].
        -- rewrite D, setThr_same. eexists. split; [reflexivity|]. rewrite D, E in G1. injection G1 as <-. rewrite setSrv_other; [exact G2|].
           intros X'. rewrite X', F in G2. destruct (k_listens x); discriminate.
        -- rewrite setThr_other by exact D. exists g. split; assumption.
    + constructor; [|exact P]. rewrite Forall_forall. intros y Y. cbn [k_addr]. destruct (clash N a (k_addr y)) eqn:C; [|reflexivity]. exfalso.
      assert (existsb (fun x => clash N a (k_addr x)) (a_socks w) = true) by (apply existsb_exists; exists y; split; assumption). congruence.
  - injection H as <- <-. rewrite app_nil_r. destruct I as [T Z' S P].
    set (g := fun x : sock => if (k_proc x =? k) && srvEq (k_srv x) s then mkSock k s a true else x) in *.
    assert (GK : forall x, k_proc (g x) = k_proc x /\ k_srv (g x) = k_srv x).
    { intro x. unfold g. destruct (Z.eqb_spec (k_proc x) k); cbn [andb]; [|auto]. destruct (srvEq (k_srv x) s) eqn:X; [|auto]. apply srvEq_eq in X. auto. }
    assert (GA : forall x, In x (a_socks w) -> k_addr (g x) = k_addr x).
    { intros x X. unfold g. destruct (Z.eqb_spec (k_proc x) k) as [D|D]; cbn [andb]; [|reflexivity]. destruct (srvEq (k_srv x) s) eqn:Y; [|reflexivity]. apply srvEq_eq in Y.
      destruct (S x X) as (h & H1 & H2). rewrite D, E in H1. injection H1 as <-. rewrite Y, F in H2. cbn [k_addr]. destruct (k_listens x); [discriminate|]. injection H2 as ->. reflexivity. }
    assert (KEEP : forall i x aa b, (i, x) <> (k, s) -> In (mkSock i x aa b) (a_socks w) -> In (mkSock i x aa b) (map g (a_socks w))).
    { intros i x aa b D J. apply in_map_iff. exists (mkSock i x aa b). split; [|exact J]. unfold g. cbn [k_proc k_srv]. destruct (Z.eqb_spec i k); cbn [andb]; [|reflexivity].
      destruct (srvEq x s) eqn:Y; [|reflexivity]. apply srvEq_eq in Y. subst. contradiction. }
    constructor.
    + intros i h H x. cbn [a_thr] in H. destruct (Z.eq_dec i k) as [->|D].
      * rewrite setThr_same in H. injection H as <-. destruct (srvEq x s) eqn:X.
        -- apply srvEq_eq in X. subst x. rewrite setSrv_same. cbn [thr_ok a_socks] in *. destruct TK as (T1 & T2). split; [exact T1|].
           apply in_map_iff. exists (mkSock k s a false). split; [|exact T2]. unfold g. cbn [k_proc k_srv]. rewrite Z.eqb_refl, srvEq_refl. reflexivity.
        -- assert (x <> s) by (intros ->; rewrite srvEq_refl in X; discriminate). rewrite setSrv_other by assumption. specialize (T k f E x). unfold thr_ok in *. cbn [a_socks].
           destruct (f x); try exact T; destruct T as (T1 & T2); (split; [exact T1|apply KEEP; [congruence|exact T2]]).
      * rewrite setThr_other in H by exact D. specialize (T i h H x). unfold thr_ok in *. cbn [a_socks].
        destruct (h x); try exact T; destruct T as (T1 & T2); (split; [exact T1|apply KEEP; [congruence|exact T2]]).
    + intros i H x. cbn [a_thr] in H. destruct (Z.eq_dec i k) as [->|D]; [rewrite setThr_same in H; discriminate|]. rewrite setThr_other in H by exact D. apply Z'. exact H.
    + intros y Y. cbn [a_socks] in Y. apply in_map_iff in Y. destruct Y as (x & <- & X). destruct (GK x) as (K1 & K2). rewrite K1, K2. cbn [a_thr].
      destruct (S x X) as (h & H1 & H2). destruct (Z.eq_dec (k_proc x) k) as [D|D].
      * rewrite D, setThr_same. eexists. split; [reflexivity|]. rewrite D, E in H1. injection H1 as <-.
        unfold g. rewrite D, Z.eqb_refl. cbn [andb]. destruct (srvEq (k_srv x) s) eqn:Y.
        -- apply srvEq_eq in Y. rewrite Y, setSrv_same. reflexivity.
        -- rewrite setSrv_other; [exact H2|]. intros Q. rewrite Q, srvEq_refl in Y. discriminate.
      * rewrite setThr_other by exact D. exists h. split; [exact H1|]. unfold g. destruct (Z.eqb_spec (k_proc x) k); [contradiction|]. exact H2.
    + cbn [a_socks]. apply pairs_map; [|exact P]. intros x y X Y C. rewrite (GA x X), (GA y Y). exact C.
Qed.
Lemma inv_step N tr w l w' ob : inv N tr w -> astep N w l = Some (w', ob) -> inv N (tr ++ ob) w'.
Proof.
  intros I H. destruct l; cbn [astep] in H.
  - eapply inv_begins; eassumption.
  - eapply inv_begins; eassumption.
  - eapply inv_thread; eassumption.
  - destruct (a_thr w k) as [f|]; [|discriminate]. destruct (f s); try discriminate. destruct (parseAddress N t) as [[a|]| | |]; try discriminate.
    destruct (isUnix a); [discriminate|]. injection H as <- <-. apply inv_gone; [exact I|right; left; reflexivity].
  - injection H as <- <-. apply inv_quiet; [exact I|apply connects_quiet].
  - destruct (traceAddress traceOpts 3 ws); [|discriminate]. injection H as <- <-. apply inv_quiet; [exact I|apply connects_quiet].
  - destruct (a_thr w k); [|discriminate]. injection H as <- <-. apply inv_gone; [exact I|left; reflexivity].
Qed.
Lemma inv_exec N ok tr w : aexec N ok tr w -> inv N tr w.
Proof.
  induction 1 as [|tr w l w' ob E IH O H]; [|eapply inv_step; eassumption].
  constructor; [discriminate|reflexivity|intros x []|constructor].
Qed.
