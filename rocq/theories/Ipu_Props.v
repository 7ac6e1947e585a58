(** C83: the commands of ipu, from the words of their lines to what they print. *)
From Coq Require Import String.
From Verif Require Import Base Lists Cstr_Model Util_Model Util_Spec Util_Proofs Rangeset_Model Rangeset_Spec Rangeset2_Proofs IpKey_Spec Match_Spec
  Start_Spec Opt_Proofs Ipu_Model Ipu_Spec Ipu_Proofs Ipu2_Proofs Ipu3_Proofs Ipu4_Proofs Opt_Model Opt_Spec.

(** ** makeip *)

(** A net and a host that fit in the slots are put there, behind the first s1
    bits of the base, and the address is printed so that it is read back as this
    one, in the template if there is one, with the length asked for by --subnet.
    [wrap = true] is a compiler with wrapping int arithmetic; without it the
    first slot must not leave 31 bits (see C51_wide_slot_refuted). *)
Theorem C83_makeip :
  forall wrap L its tail s base w v s1 s2 net host sub tpl,
  ilib_ok L -> makes its s net host sub tpl -> slots s base s1 s2 -> reads L base w v ->
  usable w s1 s2 tpl -> (wrap = true \/ w - s1 <> 31) -> (forall x, tpl = Some x -> exists p, reads L x 128 p) ->
  in_slots w s1 s2 net host ->
  exists r out, cmdMakeip wrap L (line its tail) = Ok (0, out) /\ composed w s1 s2 v net host r /\ shown_as L w r s1 s2 sub tpl out.
Proof. exact makeip_prints. Qed.
Print Assumptions C83_makeip.

(** Otherwise the command fails and prints nothing. *)
Theorem C83_makeip_refuses :
  forall wrap L its tail s base w s1 s2 net host sub tpl,
  ilib_ok L -> makes its s net host sub tpl -> slots s base s1 s2 -> family base w -> (wrap = true \/ w - s1 <> 31) ->
  (~ usable w s1 s2 tpl \/ ~ in_slots w s1 s2 net host \/ no_address L base \/ (exists x, tpl = Some x /\ forall p, ~ reads L x 128 p)) ->
  cmdMakeip wrap L (line its tail) = Ok (1, []).
Proof. exact makeip_refuses. Qed.
Print Assumptions C83_makeip_refuses.

Theorem C83_makeip_malformed :
  forall wrap L its tail s net host sub tpl,
  makes its s net host sub tpl -> 52 < zlen s \/ ~ In 47 s ->
  cmdMakeip wrap L (line its tail) = Ok (1, []).
Proof. exact makeip_malformed. Qed.
Print Assumptions C83_makeip_malformed.

(** Different nets or hosts give different texts. *)
Theorem C83_distinct :
  forall wrap L its tail its' tail' s base w v s1 s2 net host net' host' sub tpl out,
  ilib_ok L -> makes its s net host sub tpl -> makes its' s net' host' sub tpl -> slots s base s1 s2 -> reads L base w v ->
  usable w s1 s2 tpl -> (wrap = true \/ w - s1 <> 31) ->
  cmdMakeip wrap L (line its tail) = Ok (0, out) -> cmdMakeip wrap L (line its' tail') = Ok (0, out) -> net = net' /\ host = host'.
Proof. exact makeip_distinct. Qed.
Print Assumptions C83_distinct.

(** ** contains *)

(** The status is 0 exactly if the word is an address of the family of the CIDR
    whose first s bits are those of the CIDR. *)
Theorem C83_contains :
  forall wrap L its tail x net w c s arg more, ilib_ok L ->
  asks its x -> cidr x net s -> reads L net w c -> rest_words its tail = arg :: more -> 1 <= s <= w -> (wrap = true \/ ~ overflows w s) ->
  exists st, cmdContains wrap L (line its tail) = Ok (st, []) /\ (st = 0 \/ st = 1) /\
    (st = 0 <-> exists a, reads L arg w a /\ agree w s a c).
Proof. exact contains_says. Qed.
Print Assumptions C83_contains.

Theorem C83_contains_refuses :
  forall wrap L its tail x net w s arg more, ilib_ok L ->
  asks its x -> cidr x net s -> rest_words its tail = arg :: more -> s <> 0 -> family net w -> (no_address L net \/ w < s) ->
  cmdContains wrap L (line its tail) = Ok (1, []).
Proof. exact contains_refuses. Qed.
Print Assumptions C83_contains_refuses.

Theorem C83_contains_malformed :
  forall wrap L its tail x, asks its x -> ~ In 47 x -> cmdContains wrap L (line its tail) = Ok (1, []).
Proof. exact contains_malformed. Qed.
Print Assumptions C83_contains_malformed.

(** What makeip prints is contained in base/s1. *)
Theorem C83_contained :
  forall wrap L its tail its' tail' s base w v s1 s2 net host x t more,
  ilib_ok L -> makes its s net host None None -> slots s base s1 s2 -> reads L base w v -> usable w s1 s2 None -> (wrap = true \/ w - s1 <> 31) ->
  cmdMakeip wrap L (line its tail) = Ok (0, t ++ [10]) ->
  asks its' x -> cidr x base s1 -> rest_words its' tail' = t :: more ->
  cmdContains wrap L (line its' tail') = Ok (0, []).
Proof. exact makeip_contained. Qed.
Print Assumptions C83_contained.

(** A length that is 0, empty or begins with a letter contains every word, also
    one that is no address, and also if the CIDR has no address. *)
Theorem C83_any_word_refuted :
  forall wrap L its tail net d arg more, asks its (net ++ str "/" ++ d) -> ~ In 47 net ->
  (is_dec d 0 \/ match d with [] => True | c :: _ => 65 <= c end) -> rest_words its tail = arg :: more ->
  cmdContains wrap L (line its tail) = Ok (0, []).
Proof. exact contains_any. Qed.
Print Assumptions C83_any_word_refuted.

(** ** linklocal *)
Theorem C83_linklocal :
  forall L its tail m more m0 m1 m2 m3 m4 m5, ilib_ok L -> Forall (item_ok linklocalOpts) its -> rest_words its tail = m :: more ->
  i_aton L m = Some [m0; m1; m2; m3; m4; m5] ->
  exists t, cmdLinklocal L (line its tail) = Ok (0, t ++ [10]) /\
    i_pton6 L t = Some ([254; 128] ++ repeat 0 6 ++ [if Z.testbit m0 1 then m0 - 2 else m0 + 2; m1; m2; 255; 254; m3; m4; m5]).
Proof. exact linklocal_says. Qed.
Print Assumptions C83_linklocal.

Theorem C83_linklocal_refuses :
  forall L its tail, Forall (item_ok linklocalOpts) its ->
  match rest_words its tail with [] => True | m :: _ => i_aton L m = None end -> cmdLinklocal L (line its tail) = Ok (1, []).
Proof. exact linklocal_refuses. Qed.
Print Assumptions C83_linklocal_refuses.

(** ** Examples *)

(** A library: dotted decimal for IPv4, and for IPv6 and MAC addresses their
    bytes in decimal, each behind a ':'. *)
Fixpoint spanDigits (s : chars) : chars * chars :=
  match s with
  | c :: r => if (48 <=? c) && (c <=? 57) then let (a, b) := spanDigits r in (c :: a, b) else ([], s)
  | [] => ([], [])
  end.
Fixpoint rd (sep : Z) (n : nat) (s : chars) : option (list Z) :=
  match n with
  | O => match s with [] => Some [] | _ => None end
  | S k =>
      match s with
      | c :: r =>
          let (d, rest) := spanDigits r in
          let v := atoi d in
          if (c =? sep) && (0 <=? v) && (v <? 256) && streq d (dec v) then
            match rd sep k rest with Some l => Some (v :: l) | None => None end
          else None
      | [] => None
      end
  end.
Definition wr (sep : Z) (b : list Z) : chars := concat (map (fun v => sep :: dec v) b).
Definition L0 : ilib := mkI (fun s => rd 46 4 (46 :: s)) (rd 58 16) (fun b => tl (wr 46 b)) (wr 58) (rd 58 6).

Lemma span_all d rest : Forall (fun c => 48 <= c <= 57) d -> match rest with [] => True | c :: _ => c < 48 \/ 57 < c end -> spanDigits (d ++ rest) = (d, rest).
Proof.
  induction 1 as [|c d C D IH]; intros R; cbn [app spanDigits].
  - destruct rest as [|c r]; [reflexivity|]. cbn [spanDigits]. destruct ((48 <=? c) && (c <=? 57)) eqn:E; [lia|reflexivity].
  - destruct ((48 <=? c) && (c <=? 57)) eqn:E; [|lia]. rewrite IH by auto. reflexivity.
Qed.
Lemma span_in s d rest : spanDigits s = (d, rest) -> s = d ++ rest /\ Forall (fun c => 48 <= c <= 57) d.
Proof.
  revert d rest. induction s as [|c s IH]; cbn [spanDigits]; intros d rest H; [injection H as <- <-; auto|].
  destruct ((48 <=? c) && (c <=? 57)) eqn:E; [|injection H as <- <-; auto].
  destruct (spanDigits s) as [a b]. injection H as <- <-. destruct (IH a b eq_refl) as (-> & F). split; [reflexivity|]. constructor; [lia|auto].
Qed.
Lemma rd_wr sep b : (sep < 48 \/ 57 < sep) -> Forall (fun x => 0 <= x < 256) b -> rd sep (length b) (wr sep b) = Some b.
Proof.
  intros S. induction 1 as [|x b X B IH]; [reflexivity|]. cbn [length rd]. unfold wr. cbn [map concat app]. fold (wr sep b).
  assert (D : is_dec (dec x) x) by (apply dec_ok; unfold is_u32, UINT_MAX; lia). destruct (Fwmark_Proofs.atoi_dec (dec x) x D ltac:(lia)) as [A _].
  rewrite span_all; [|apply D|destruct b; cbn; auto]. rewrite A, streq_refl, Z.eqb_refl. replace (0 <=? x) with true by lia. replace (x <? 256) with true by lia.
  cbn [andb]. rewrite IH. reflexivity.
Qed.
Lemma rd_some sep n : forall s b, rd sep n s = Some b -> bytes n b /\ Forall (fun c => c = sep \/ 48 <= c <= 57) s /\ (n = O \/ In sep s).
Proof.
  induction n as [|n IH]; intros s b; cbn [rd].
  - destruct s; [|discriminate]. intros [= <-]. repeat split; auto.
  - destruct s as [|c r]; [discriminate|]. destruct (spanDigits r) as [d rest] eqn:E. destruct (span_in r d rest E) as (-> & F).
    destruct ((c =? sep) && (0 <=? atoi d) && (atoi d <? 256) && streq d (dec (atoi d))) eqn:C; [|discriminate]. rewrite !andb_true_iff in C.
    destruct (rd sep n rest) as [l|] eqn:R; [|discriminate]. intros [= <-]. destruct (IH rest l R) as ((LN & LB) & LS & _).
    split; [split; [cbn; congruence|constructor; [lia|auto]]|]. split; [constructor; [lia|]|right; left; lia].
    apply Forall_app. split; auto. eapply Forall_impl; [|exact F]. cbn. auto.
Qed.
Lemma L0_ok : ilib_ok L0.
Proof.
  split; cbn [i_pton4 i_pton6 i_ntop4 i_ntop6 i_aton L0].
  - intros s b H. apply rd_some in H. destruct H as (B & F & _). inversion F; subst. split; auto. rewrite Forall_forall in H2.
    split; intros I; specialize (H2 _ I); lia.
  - intros s b H. apply rd_some in H. destruct H as (B & F & [|I]); [discriminate|]. split; auto. split; auto. rewrite Forall_forall in F.
    intros J. specialize (F _ J). lia.
  - intros b [N F]. destruct b as [|x b]; [discriminate|]. rewrite <- N. change (46 :: tl (wr 46 (x :: b))) with (wr 46 (x :: b)). apply rd_wr; auto. lia.
  - intros b [N F]. rewrite <- N. apply rd_wr; auto. lia.
  - intros s b H. apply rd_some in H. tauto.
Qed.

Lemma den opts i o a : znth opts i = Some o -> p_name o = a -> denotes opts a i.
Proof. intros Z N. exists o. auto. Qed.

(** ipu makeip --cidr=192.168.128.0/17/24 --net=3 --host 7 --subnet=1 *)
Definition its0 : list item :=
  [GivenEq true (str "cidr") (str "192.168.128.0/17/24"); GivenEq true (str "net") (str "3"); GivenNext true (str "host") (str "7");
   GivenEq true (str "subnet") (str "1")].
(** ipu contains --cidr=192.168.128.0/17 192.168.131.7 *)
Definition its1 : list item := [GivenEq true (str "cidr") (str "192.168.128.0/17"); Plain (str "192.168.131.7")].

Lemma dec3 : is_dec (str "3") 3 /\ is_dec (str "7") 7 /\ is_dec (str "1") 1 /\ is_dec (str "17") 17 /\ is_dec (str "24") 24.
Proof.
  assert (D : forall v, 0 <= v < 256 -> is_dec (dec v) v) by (intros; apply dec_ok; unfold is_u32, UINT_MAX; lia).
  split; [exact (D 3 ltac:(lia))|]. split; [exact (D 7 ltac:(lia))|]. split; [exact (D 1 ltac:(lia))|]. split; [exact (D 17 ltac:(lia))|exact (D 24 ltac:(lia))].
Qed.

Example C83_ex_makes :
  makes its0 (str "192.168.128.0/17/24") 3 7 (Some 1) None /\ slots (str "192.168.128.0/17/24") (str "192.168.128.0") 17 24 /\
  reads L0 (str "192.168.128.0") 32 3232268288 /\ usable 32 17 24 None /\ in_slots 32 17 24 3 7.
Proof.
  destruct dec3 as (D3 & D7 & D1 & D17 & D24).
  assert (C : denotes makeipOpts (str "cidr") 1) by (eapply den; reflexivity).
  assert (N : denotes makeipOpts (str "net") 2) by (eapply den; reflexivity).
  assert (H : denotes makeipOpts (str "host") 3) by (eapply den; reflexivity).
  assert (S : denotes makeipOpts (str "subnet") 4) by (eapply den; reflexivity).
  assert (U : forall a i j, denotes makeipOpts a i -> denotes makeipOpts a j -> i = j) by (intros; eapply denotes_fun; eauto; apply makeip_table).
  assert (G : forall it i, In it its0 -> mentions makeipOpts it i -> (it = nth 0 its0 it /\ i = 1) \/ (it = nth 1 its0 it /\ i = 2) \/ (it = nth 2 its0 it /\ i = 3) \/ (it = nth 3 its0 it /\ i = 4)).
  { intros it i I (v & M). cbn in I. destruct I as [<-|[<-|[<-|[<-|[]]]]]; cbn [gives] in M; destruct M as (M & _).
    - left. split; [reflexivity|eapply U; eauto].
    - right. left. split; [reflexivity|eapply U; eauto].
    - right. right. left. split; [reflexivity|eapply U; eauto].
    - right. right. right. split; [reflexivity|eapply U; eauto]. }
  assert (O : forall i o, znth makeipOpts i = Some o -> p_var o = true -> p_default o <> Some (str "no") -> ~ is_flag o) by (unfold is_flag; intros; intros [K|K]; congruence).
  split; [|split; [|split; [|split]]].
  - split; [|split; [|split; [|split; [|split]]]].
    + constructor; [|constructor; [|constructor; [|constructor; [|constructor]]]].
      * exists 1. eexists. split; [exact C|]. split; [reflexivity|]. split; [eapply (O 1); [reflexivity..|discriminate]|discriminate].
      * exists 2. eexists. split; [exact N|]. split; [reflexivity|]. split; [eapply (O 2); [reflexivity..|discriminate]|discriminate].
      * split; [discriminate|]. exists 3. eexists. split; [exact H|]. split; [reflexivity|]. split; [eapply (O 3); [reflexivity..|discriminate]|discriminate].
      * exists 4. eexists. split; [exact S|]. split; [reflexivity|]. split; [eapply (O 4); [reflexivity..|discriminate]|discriminate].
    + exists 1. eexists. split; [reflexivity|]. split; [reflexivity|]. left. exists []. do 2 eexists. split; [reflexivity|]. split; [split; [exact C|reflexivity]|].
      intros it' I M. destruct (G it' 1) as [(E & _)|[(_ & E)|[(_ & E)|(_ & E)]]]; try discriminate; [right; exact I|auto|]. cbn in I, E. subst it'.
      destruct I as [I|[I|[I|[]]]]; discriminate.
    + exists (str "3"). split; [|split; [lia|auto]]. exists 2. eexists. split; [reflexivity|]. split; [reflexivity|]. left.
      exists (firstn 1 its0). do 2 eexists. split; [reflexivity|]. split; [split; [exact N|reflexivity]|].
      intros it' I M. destruct (G it' 2) as [(_ & E)|[(E & _)|[(_ & E)|(_ & E)]]]; try discriminate; [right; right; exact I|auto|]. cbn in I, E. subst it'.
      destruct I as [I|[I|[]]]; discriminate.
    + exists (str "7"). split; [|split; [lia|auto]]. exists 3. eexists. split; [reflexivity|]. split; [reflexivity|]. left.
      exists (firstn 2 its0). do 2 eexists. split; [reflexivity|]. split; [split; [exact H|reflexivity]|].
      intros it' I M. destruct (G it' 3) as [(_ & E)|[(_ & E)|[(E & _)|(_ & E)]]]; try discriminate; [do 3 right; exact I|auto|]. cbn in I, E. subst it'.
      destruct I as [I|[]]; discriminate.
    + exists (str "1"). split; [|split; [lia|auto]]. exists 4. eexists. split; [reflexivity|]. split; [reflexivity|]. left.
      exists (firstn 3 its0). do 2 eexists. split; [reflexivity|]. split; [split; [exact S|reflexivity]|]. intros it' [].
    + exists 5. eexists. split; [reflexivity|]. split; [reflexivity|]. right. split; [|eexists; split; reflexivity].
      intros it I M. destruct (G it 5 I M) as [(_ & E)|[(_ & E)|[(_ & E)|(_ & E)]]]; discriminate.
  - split; [vm_compute; discriminate|]. split; [cbn; intuition discriminate|]. split; [lia|]. split; [lia|]. right. exists (str "17"), (str "24").
    split; [reflexivity|]. split; left; auto.
  - left. split; [reflexivity|]. eexists. split; vm_compute; reflexivity.
  - unfold usable. split; [lia|]. split; [lia|]. discriminate.
  - unfold in_slots. change (2 ^ (24 - 17)) with 128. change (2 ^ (32 - 24)) with 256. lia.
Qed.
Example C83_ex_makeip :
  cmdMakeip false L0 (line its0 None) = Ok (0, str "192.168.131.7/17" ++ [10]) /\
  cmdMakeip false L0 [str "--cidr=10.0.0.0/8/24"; str "-host=300"] = Ok (1, []) /\
  cmdMakeip false L0 [str "--cidr=10.0.0.0"] = Ok (1, []) /\
  cmdMakeip false L0 [str "--cidr=10.0.0.0/8/24"; str "--ip=:0:1:2:3:4:5:6:7:8:9:10:11:12:13:14:15"; str "--host=5"; str "--subnet=2"]
    = Ok (0, str ":0:1:2:3:4:5:6:7:8:9:10:11:10:0:0:5/120" ++ [10]).
Proof. vm_compute. auto. Qed.
Example C83_ex_asks :
  asks its1 (str "192.168.128.0/17") /\ cidr (str "192.168.128.0/17") (str "192.168.128.0") 17 /\ rest_words its1 None = [str "192.168.131.7"] /\
  ~ overflows 32 17.
Proof.
  destruct dec3 as (_ & _ & _ & D17 & _). assert (C : denotes containsOpts (str "cidr") 1) by (eapply den; reflexivity).
  split; [split; [constructor; [|constructor; [exact Logic.I|constructor]]|]|split; [|split; [reflexivity|unfold overflows; lia]]].
  - exists 1. eexists. split; [exact C|]. split; [reflexivity|]. split; [intros [K|K]; discriminate|discriminate].
  - exists 1. eexists. split; [reflexivity|]. split; [reflexivity|]. left. exists []. do 2 eexists. split; [reflexivity|]. split; [split; [exact C|reflexivity]|].
    intros it' [<-|[]] (v & []).
  - exists (str "17"). split; [reflexivity|]. split; [cbn; intuition discriminate|]. split; [exact D17|lia].
Qed.
Example C83_ex_contains :
  cmdContains false L0 (line its1 None) = Ok (0, []) /\
  cmdContains false L0 [str "--cidr=10.0.0.0/8"; str "11.0.0.1"] = Ok (1, []) /\
  cmdContains false L0 [str "--cidr=10.0.0.0/x"; str "nonsense"] = Ok (0, []) /\
  cmdLinklocal L0 [str ":0:17:34:51:68:85"] = Ok (0, str ":254:128:0:0:0:0:0:0:2:17:34:255:254:51:68:85" ++ [10]).
Proof. vm_compute. auto. Qed.

(** ** Lines that are refused *)

(** Without --cidr, with a word that looks like an option and is none, or with an
    option at the end whose value is missing, the command fails and prints nothing. *)
Theorem C83_no_cidr :
  forall wrap L its tail,
  (Forall (item_ok makeipOpts) its -> ~ on_line makeipOpts its "cidr" -> cmdMakeip wrap L (line its tail) = Ok (1, [])) /\
  (Forall (item_ok containsOpts) its -> ~ on_line containsOpts its "cidr" -> cmdContains wrap L (line its tail) = Ok (1, [])).
Proof. exact no_cidr. Qed.
Print Assumptions C83_no_cidr.
Theorem C83_unknown :
  forall opts f wrap L its w more, In (opts, f) commands -> Forall (item_ok opts) its -> no_option opts w ->
  f wrap L (concat (map words_of its) ++ w :: more) = Ok (1, []).
Proof. exact unknown_option. Qed.
Print Assumptions C83_unknown.
Theorem C83_no_value :
  forall opts f wrap L its two a i o, In (opts, f) commands -> Forall (item_ok opts) its -> a <> [] -> denotes opts a i ->
  znth opts i = Some o -> ~ is_flag o -> f wrap L (concat (map words_of its) ++ [dashes two ++ a]) = Ok (1, []).
Proof. exact value_missing. Qed.
Print Assumptions C83_no_value.

Example C83_ex_refused :
  cmdMakeip true L0 [str "--net=3"] = Ok (1, []) /\ cmdMakeip true L0 [str "--mask"; str "--cidr=10.0.0.0/8/24"] = Ok (1, []) /\
  cmdContains true L0 [str "--cidr"] = Ok (1, []).
Proof. repeat split; vm_compute; reflexivity. Qed.
Example C83_ex_no_option : no_option makeipOpts (str "--mask").
Proof.
  assert (H : forall c a i, c = 109 \/ c = 45 -> ~ denotes makeipOpts (c :: a) i).
  { intros c a i C (o & Z & B). apply znth_In in Z.
    assert (E : exists b, p_name o = (c :: a) ++ b) by (destruct B as [B|(_ & B & _)]; [exists []; rewrite app_nil_r; exact B|exact B]).
    destruct E as (b & E). cbn [makeipOpts In] in Z. destruct Z as [<-|[<-|[<-|[<-|[<-|[<-|[]]]]]]]; cbn in E; injection E as E _; destruct C; subst c; discriminate. }
  split; [exact (fun x => x)|]. split; [discriminate|]. intros [|] a v i [E|E]; cbn [dashes app] in E; cbn in E.
  - injection E as <-. apply H. auto.
  - destruct a as [|c a]; [discriminate|]. cbn [app] in E. injection E as <- E. apply H. auto.
  - injection E as <-. apply H. auto.
  - destruct a as [|c a]; [discriminate|]. cbn [app] in E. injection E as <- E. apply H. auto.
Qed.
