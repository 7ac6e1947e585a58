(** Proofs about the commands of ipu (C83), continued: what they print. *)
From Coq Require Import String.
From Verif Require Import Base Lists Cstr_Model Util_Model Util_Spec Util_Proofs Rangeset_Model Rangeset_Spec Rangeset2_Proofs IpKey_Spec Match_Spec
  Match_Proofs Cidr_Proofs Fwmark_Proofs Shm_Model Start_Spec Start_Proofs Lines_Proofs Opt2_Proofs Opt_Proofs Ipu_Model Ipu_Spec Ipu_Proofs Opt_Model Opt_Spec.

(** ** The last word of an IPv6 address *)
Lemma high_div h lo k : 0 <= k <= 32 -> (h * 4294967296 + lo) / 2 ^ k = h * 2 ^ (32 - k) + lo / 2 ^ k.
Proof.
  intros K. replace 4294967296 with (2 ^ (32 - k) * 2 ^ k) by (rewrite <- Z.pow_add_r by lia; replace (32 - k + k) with 32 by lia; reflexivity).
  rewrite Z.mul_assoc. rewrite Z.div_add_l by lia. reflexivity.
Qed.
Lemma high_mod h lo k : 0 <= k <= 32 -> (h * 4294967296 + lo) mod 2 ^ k = lo mod 2 ^ k.
Proof.
  intros K. replace 4294967296 with (2 ^ (32 - k) * 2 ^ k) by (rewrite <- Z.pow_add_r by lia; replace (32 - k + k) with 32 by lia; reflexivity).
  rewrite Z.mul_assoc, Z.add_comm. apply Z.mod_add. lia.
Qed.
Lemma composed_low h r v s1 s2 net host : 97 <= s1 <= s2 -> s2 <= 128 ->
  0 <= h < 2 ^ 96 -> 0 <= r < 4294967296 ->
  agree 128 s1 r v -> (r / 2 ^ (128 - s2)) mod 2 ^ (s2 - s1) = net -> r mod 2 ^ (128 - s2) = host ->
  composed 128 s1 s2 (h * 4294967296 + v) net host (h * 4294967296 + r).
Proof.
  intros S1 S2 H R A N X. unfold composed, agree in *. rewrite !high_div, high_mod by lia. split; [|split; [|split]]; auto.
  - change (2 ^ 128) with (2 ^ 96 * 4294967296). nia.
  - rewrite A. reflexivity.
  - rewrite <- N. rewrite Z.add_comm. replace (2 ^ (32 - (128 - s2))) with (2 ^ (s1 - 96) * 2 ^ (s2 - s1)) by (rewrite <- Z.pow_add_r by lia; f_equal; lia).
    rewrite Z.mul_assoc. apply Z.mod_add. lia.
Qed.

(** ** makeip *)
Definition mk (wrap : bool) (w s1 s2 net host a : Z) (sub : option Z) (tpl : option chars) : outcome (Z * option Z) :=
  makeip wrap w s1 s2 net host a (match tpl with Some _ => true | None => false end) sub.

Lemma text_eq wrap L s base w s1 s2 net host sub tpl n h u : slots s base s1 s2 -> family base w ->
  is_num n net -> is_num h host -> match sub with None => u = None | Some k => exists t, u = Some t /\ is_num t k end ->
  makeipText wrap L s n h u tpl =
  match (if w =? 32 then i_pton4 L base else i_pton6 L base) with
  | None => do _ <- mk wrap w s1 s2 net host 0 sub tpl; Die
  | Some b =>
      if w =? 32 then
        do (a, len) <- mk wrap w s1 s2 net host (fromBytes b) sub tpl;
        match tpl with
        | None => Ok (0, printed (i_ntop4 L (toBytes a)) len)
        | Some t =>
            match i_pton6 L t with
            | None => Die
            | Some b6 => Ok (0, printed (i_ntop6 L (firstn 12 b6 ++ toBytes a)) len)
            end
        end
      else
        do (a, len) <- mk wrap w s1 s2 net host (fromBytes (skipn 12 b)) sub tpl;
        Ok (0, printed (i_ntop6 L (firstn 12 b ++ toBytes a)) len)
  end.
Proof.
  intros S F N H U. destruct (slots_read s base s1 s2 S) as (Z & r & E & E1 & E2). unfold makeipText. rewrite Z, E. cbv zeta.
  rewrite E1, E2, (family_bits base w F), (atoi_num _ _ N), (atoi_num _ _ H).
  replace (match u with Some s0 => Some (atoi s0) | None => None end) with sub; [reflexivity|].
  destruct sub as [k|]; [destruct U as (t & -> & T); rewrite (atoi_num _ _ T); reflexivity|subst; reflexivity].
Qed.
Lemma num_int n v : is_num n v -> is_int v.
Proof. intros [H _]. exact H. Qed.

Lemma mk_ok wrap w s1 s2 net host a sub tpl : usable w s1 s2 tpl -> (w = 32 \/ w = 128) -> (wrap = true \/ w - s1 <> 31) ->
  is_int net -> is_int host -> 0 <= a < 4294967296 -> in_slots w s1 s2 net host ->
  exists r, 0 <= r < 4294967296 /\
    mk wrap w s1 s2 net host a sub tpl = Ok (r, match sub with None => None | Some k => Some ((if k =? 1 then s1 else s2) + (match tpl with Some _ => 96 | None => 0 end)) end) /\
    agree w s1 r a /\ (r / 2 ^ (w - s2)) mod 2 ^ (s2 - s1) = net /\ r mod 2 ^ (w - s2) = host.
Proof.
  intros (S1 & S2 & U) W X N H A I. unfold mk.
  destruct (makeip_fields wrap w s1 s2 net host a (match tpl with Some _ => true | None => false end) sub) as [(_ & _ & r & R & E & C)|(B & _)]; auto.
  - split; [|lia]. destruct W as [->| ->]; [left; lia|right]. destruct (U eq_refl) as [? ->]. auto.
  - exists r. split; auto. split; auto. rewrite E. destruct tpl; reflexivity.
  - contradiction.
Qed.
Lemma mk_die wrap w s1 s2 net host a sub tpl : (w = 32 \/ w = 128) -> (wrap = true \/ w - s1 <> 31) -> is_int net -> is_int host -> 0 <= a < 4294967296 ->
  (~ usable w s1 s2 tpl \/ ~ in_slots w s1 s2 net host) -> mk wrap w s1 s2 net host a sub tpl = Die.
Proof.
  intros W X N H A I.
  assert (D : usable w s1 s2 tpl \/ ~ usable w s1 s2 tpl).
  { unfold usable. destruct (Z_le_dec 1 s1); [|right; lia]. destruct (Z_le_dec s1 s2); [|right; lia]. destruct (Z_le_dec s2 w); [|right; lia].
    destruct (Z.eq_dec w 128); [|left; lia]. destruct (Z_le_dec 97 s1); [|right; intros (_ & _ & K); destruct (K ltac:(lia)); lia].
    destruct tpl; [right; intros (_ & _ & K); destruct (K ltac:(lia)); discriminate|left; auto]. }
  destruct D as [D|D].
  - destruct I as [I|I]; [contradiction|]. destruct D as (S1 & S2 & U). unfold mk.
    destruct (makeip_fields wrap w s1 s2 net host a (match tpl with Some _ => true | None => false end) sub) as [(P & Q & _)|(_ & E)]; auto.
    + split; [|lia]. destruct W as [->| ->]; [left; lia|right]. destruct (U eq_refl) as [? ->]. auto.
    + destruct I. split; auto.
  - unfold mk, makeip. destruct ((w =? 128) && (s1 <? 97)) eqn:E1; auto.
    destruct ((w =? 128) && match tpl with Some _ => true | None => false end) eqn:E2; auto.
    destruct ((s2 <? s1) || (w <? s2) || (s1 <=? 0)) eqn:E3; auto. exfalso. apply D.
    rewrite !orb_false_iff in E3. rewrite !andb_false_iff in *. split; [lia|]. split; [lia|]. intros ->. split; [lia|].
    destruct tpl; auto. destruct E2; discriminate.
Qed.

Lemma printed_eq t len : printed t len = t ++ match len with Some n => str "/" ++ sdec n ++ [10] | None => [10] end.
Proof. unfold printed. destruct len; reflexivity. Qed.
Lemma sdec_small v : 0 <= v < 4294967296 -> is_dec (sdec v) v.
Proof. intros V. unfold sdec. destruct (v <? 0) eqn:E; [lia|]. apply dec_ok. unfold is_u32, UINT_MAX. lia. Qed.

Lemma makeip_prints wrap L its tail s base w v s1 s2 net host sub tpl :
  ilib_ok L -> makes its s net host sub tpl -> slots s base s1 s2 -> reads L base w v ->
  usable w s1 s2 tpl -> (wrap = true \/ w - s1 <> 31) -> (forall x, tpl = Some x -> exists p, reads L x 128 p) ->
  in_slots w s1 s2 net host ->
  exists r out, cmdMakeip wrap L (line its tail) = Ok (0, out) /\ composed w s1 s2 v net host r /\ shown_as L w r s1 s2 sub tpl out.
Proof.
  intros K M S R U X T I. destruct (makeip_line wrap L its tail s net host sub tpl M) as (n & h & u & Nn & Nh & Su & ->).
  destruct (reads_family L base w v K R) as (F & V & _).
  rewrite (text_eq wrap L s base w s1 s2 net host sub tpl n h u S F Nn Nh Su).
  destruct R as [(-> & b & P & ->)|(-> & b & P & ->)].
  - destruct (ok_pton4 L K base b P) as (B & _). change (32 =? 32) with true. cbv iota. rewrite P.
    destruct (mk_ok wrap 32 s1 s2 net host (fromBytes b) sub tpl U (or_introl eq_refl) X (num_int _ _ Nn) (num_int _ _ Nh)) as (r & R & E & C); auto.
    { rewrite fromBytes_network by auto. apply network_bounds4; auto. }
    rewrite fromBytes_network in C by auto. rewrite E. cbn [obind]. destruct (toBytes_ok r R) as [TB TN].
    destruct U as (U1 & U2 & _).
    destruct tpl as [x|].
    + destruct (T x eq_refl) as (p & [(A & _)|(_ & b6 & P6 & ->)]); [discriminate|]. rewrite P6. exists r. eexists. split; [reflexivity|].
      split; [split; [exact R|exact C]|]. destruct (ok_pton6 L K x b6 P6) as (B6 & _). destruct (bytes_parts b6 B6) as [BL BH].
      assert (BJ := bytes_join _ _ BH TB).
      exists (i_ntop6 L (firstn 12 b6 ++ toBytes r)), 128. eexists. split; [right; split; [reflexivity|]; eexists; split; [apply (ok_ntop6 L K); exact BJ|reflexivity]|].
      split; [exists (network b6); split; [right; split; [reflexivity|]; eauto|]; split; [reflexivity|]|].
      { rewrite network_parts, TN by auto. rewrite (network_split b6 B6). change (2 ^ 32) with 4294967296.
        rewrite Z.div_add_l by lia. rewrite (Z.div_small (network (skipn 12 b6))) by (apply network_bounds4; auto). lia. }
      rewrite printed_eq. destruct sub as [k|]; [|reflexivity]. eexists. split; [|reflexivity]. apply sdec_small. destruct (k =? 1); lia.
    + exists r. eexists. split; [reflexivity|]. split; [split; [exact R|exact C]|].
      exists (i_ntop4 L (toBytes r)), 32, r. split; [left; split; [reflexivity|]; eexists; split; [apply (ok_ntop4 L K); exact TB|auto]|].
      split; [auto|]. rewrite printed_eq. destruct sub as [k|]; [|reflexivity]. eexists. split; [|reflexivity].
      replace (32 - 32) with 0 by lia. apply sdec_small. destruct (k =? 1); lia.
  - destruct (ok_pton6 L K base b P) as (B & _). change (128 =? 32) with false. cbv iota. rewrite P. destruct (bytes_parts b B) as [BL BH].
    destruct (mk_ok wrap 128 s1 s2 net host (fromBytes (skipn 12 b)) sub tpl U (or_intror eq_refl) X (num_int _ _ Nn) (num_int _ _ Nh)) as (r & R & E & C); auto.
    { rewrite fromBytes_network by auto. apply network_bounds4; auto. }
    rewrite fromBytes_network in C by auto. rewrite E. cbn [obind]. destruct (toBytes_ok r R) as [TB TN].
    assert (BJ := bytes_join _ _ BH TB). destruct U as (U1 & U2 & U3). destruct (U3 eq_refl) as (U4 & ->).
    exists (network (firstn 12 b) * 4294967296 + r). eexists. split; [reflexivity|]. split.
    + rewrite (network_split b B). apply composed_low; try tauto; try lia. assert (Q := network_bound (firstn 12 b) (proj2 BH)).
      unfold zlen in Q. rewrite (proj1 BH) in Q. exact Q.
    + exists (i_ntop6 L (firstn 12 b ++ toBytes r)), 128. eexists. split; [right; split; [reflexivity|]; eexists; split; [apply (ok_ntop6 L K); exact BJ|reflexivity]|].
      split; [split; [reflexivity|]; rewrite network_parts, TN by auto; reflexivity|].
      rewrite printed_eq. destruct sub as [k|]; [|reflexivity]. eexists. split; [|reflexivity].
      replace (128 - 128) with 0 by lia. apply sdec_small. destruct (k =? 1); lia.
Qed.

Lemma makeip_refuses wrap L its tail s base w s1 s2 net host sub tpl :
  ilib_ok L -> makes its s net host sub tpl -> slots s base s1 s2 -> family base w -> (wrap = true \/ w - s1 <> 31) ->
  (~ usable w s1 s2 tpl \/ ~ in_slots w s1 s2 net host \/ no_address L base \/ (exists x, tpl = Some x /\ forall p, ~ reads L x 128 p)) ->
  cmdMakeip wrap L (line its tail) = Ok (1, []).
Proof.
  intros K M S F X I. destruct (makeip_line wrap L its tail s net host sub tpl M) as (n & h & u & Nn & Nh & Su & ->).
  rewrite (text_eq wrap L s base w s1 s2 net host sub tpl n h u S F Nn Nh Su).
  assert (W : w = 32 \/ w = 128) by (destruct F as [[_ ->]|[_ ->]]; auto).
  assert (D : forall a, 0 <= a < 4294967296 -> ~ usable w s1 s2 tpl \/ ~ in_slots w s1 s2 net host -> mk wrap w s1 s2 net host a sub tpl = Die).
  { intros a A J. apply mk_die; auto; eapply num_int; eauto. }
  assert (Q : forall a, 0 <= a < 4294967296 -> mk wrap w s1 s2 net host a sub tpl = Die \/ exists r len, mk wrap w s1 s2 net host a sub tpl = Ok (r, len) /\ usable w s1 s2 tpl).
  { intros a A. destruct (mk wrap w s1 s2 net host a sub tpl) as [[r len]| | |] eqn:E; auto.
    - right. exists r, len. split; auto. destruct W as [->| ->].
      + unfold mk, makeip in E. change (32 =? 128) with false in E. cbn [andb] in E.
        destruct ((s2 <? s1) || (32 <? s2) || (s1 <=? 0)) eqn:E3; [discriminate|]. rewrite !orb_false_iff in E3. split; [lia|]. split; [lia|]. discriminate.
      + unfold mk, makeip in E. change (128 =? 128) with true in E. cbn [andb] in E. destruct (s1 <? 97) eqn:E1; [discriminate|].
        destruct tpl; [discriminate|]. destruct ((s2 <? s1) || (128 <? s2) || (s1 <=? 0)) eqn:E3; [discriminate|]. rewrite !orb_false_iff in E3.
        split; [lia|]. split; [lia|]. intros _. split; auto. lia.
    - exfalso. assert (Hn := num_int _ _ Nn). assert (Hh := num_int _ _ Nh).
      destruct (Z_le_dec 1 s1) as [A1|A1]; [|rewrite (D a A) in E; [discriminate|left; unfold usable; lia]].
      destruct (Z_le_dec s1 s2) as [A2|A2]; [|rewrite (D a A) in E; [discriminate|left; unfold usable; lia]].
      destruct (Z_le_dec s2 w) as [A3|A3]; [|rewrite (D a A) in E; [discriminate|left; unfold usable; lia]].
      destruct (makeip_fields wrap w s1 s2 net host a (match tpl with Some _ => true | None => false end) sub) as [(_ & _ & r & _ & C & _)|(_ & C)]; auto; try (unfold mk in E; congruence).
      split; [|lia]. destruct W as [->| ->]; [left; lia|right]. split; [reflexivity|].
      destruct (Z_le_dec 97 s1) as [A4|A4]; [|rewrite (D a A) in E; [discriminate|left; unfold usable; intros (_ & _ & Y); destruct (Y eq_refl); lia]].
      split; [lia|]. destruct tpl; auto. rewrite (D a A) in E; [discriminate|left; unfold usable; intros (_ & _ & Y); destruct (Y eq_refl); discriminate].
    - exfalso. unfold mk in E. assert (Hn := num_int _ _ Nn). assert (Hh := num_int _ _ Nh).
      destruct (Z_le_dec 1 s1) as [A1|A1]; [|unfold mk in D; rewrite (D a A) in E; [discriminate|left; unfold usable; lia]].
      destruct (Z_le_dec s1 s2) as [A2|A2]; [|unfold mk in D; rewrite (D a A) in E; [discriminate|left; unfold usable; lia]].
      destruct (Z_le_dec s2 w) as [A3|A3]; [|unfold mk in D; rewrite (D a A) in E; [discriminate|left; unfold usable; lia]].
      destruct (makeip_fields wrap w s1 s2 net host a (match tpl with Some _ => true | None => false end) sub) as [(_ & _ & r & _ & C & _)|(_ & C)]; auto; try congruence.
      split; [|lia]. destruct W as [->| ->]; [left; lia|right]. split; [reflexivity|].
      destruct (Z_le_dec 97 s1) as [A4|A4]; [|unfold mk in D; rewrite (D a A) in E; [discriminate|left; unfold usable; intros (_ & _ & Y); destruct (Y eq_refl); lia]].
      split; [lia|]. destruct tpl; auto. unfold mk in D. rewrite (D a A) in E; [discriminate|left; unfold usable; intros (_ & _ & Y); destruct (Y eq_refl); discriminate]. }
  destruct (if w =? 32 then i_pton4 L base else i_pton6 L base) as [b|] eqn:P.
  - assert (R : exists v, reads L base w v).
    { destruct W as [->| ->]; [change (32 =? 32) with true in P|change (128 =? 32) with false in P]; cbv iota in P; exists (network b); [left|right]; eauto. }
    destruct W as [->| ->]; [change (32 =? 32) with true in *|change (128 =? 32) with false in *]; cbv iota in *.
    + destruct (ok_pton4 L K base b P) as (B & _).
      assert (A : 0 <= fromBytes b < 4294967296) by (rewrite fromBytes_network by auto; apply network_bounds4; auto).
      destruct (Q (fromBytes b) A) as [E|(r & len & E & U)]; rewrite E; [reflexivity|]. cbn [obind].
      destruct I as [I|[I|[I|(x & -> & I)]]].
      * contradiction.
      * rewrite (D _ A) in E by auto. discriminate.
      * destruct R as (v & R). destruct (I _ _ R).
      * destruct (i_pton6 L x) as [b6|] eqn:P6; [|reflexivity]. destruct (I (network b6)). right. eauto.
    + destruct (ok_pton6 L K base b P) as (B & _). destruct (bytes_parts b B) as [BL BH].
      assert (A : 0 <= fromBytes (skipn 12 b) < 4294967296) by (rewrite fromBytes_network by auto; apply network_bounds4; auto).
      destruct (Q (fromBytes (skipn 12 b)) A) as [E|(r & len & E & U)]; rewrite E; [reflexivity|]. exfalso.
      destruct I as [I|[I|[I|(x & -> & I)]]].
      * contradiction.
      * rewrite (D _ A) in E by auto. discriminate.
      * destruct R as (v & R). destruct (I _ _ R).
      * destruct U as (_ & _ & U). destruct (U eq_refl). discriminate.
  - destruct (Q 0 ltac:(lia)) as [E|(r & len & E & _)]; rewrite E; reflexivity.
Qed.
