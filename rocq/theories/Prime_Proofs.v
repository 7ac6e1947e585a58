(** Correctness of the prime search. *)
From Coq Require Import Znumtheory.
From Verif Require Import Base Prime_Model.

Lemma prime_factor_exists : forall n, 1 < n -> exists p, prime p /\ (p | n).
Proof.
  intros n Hn.
  assert (H : forall k m, 1 < m -> m <= Z.of_nat k -> exists p, prime p /\ (p | m)).
  { induction k as [|k IH]; intros m Hm Hk; [lia|].
    destruct (prime_dec m) as [Hp|Hp].
    - exists m; split; [assumption|apply Z.divide_refl].
    - destruct (not_prime_divide m Hm Hp) as [d [[Hd1 Hd2] Hd]].
      destruct (IH d Hd1) as [p [Hp1 Hp2]]; [lia|].
      exists p; split; [assumption|]. eapply Z.divide_trans; eauto. }
  apply (H (Z.to_nat n) n Hn). lia.
Qed.

Lemma small_prime_factor : forall n, 1 < n -> ~ prime n ->
  exists p, prime p /\ (p | n) /\ p * p <= n.
Proof.
  intros n Hn Hnp.
  destruct (not_prime_divide n Hn Hnp) as [d [[Hd1 Hd2] [q Hq]]].
  assert (1 < q) by nia.
  assert (Hmin : exists a, 1 < a /\ (a | n) /\ a * a <= n).
  { destruct (Z_le_gt_dec d q).
    - exists d. repeat split; [lia|exists q; lia|nia].
    - exists q. repeat split; [lia|exists d; lia|nia]. }
  destruct Hmin as [a [Ha1 [Ha2 Ha3]]].
  destruct (prime_factor_exists a Ha1) as [p [Hp1 Hp2]].
  exists p. split; [assumption|]. split; [eapply Z.divide_trans; eauto|].
  assert (p <= a) by (apply Z.divide_pos_le; [lia|assumption]).
  assert (1 < p) by (apply prime_ge_2 in Hp1; lia). nia.
Qed.

(** [composite_b d]: some e with 1 < e < d divides d. *)
Definition composite_b (d : Z) : bool :=
  existsb (fun e => (d mod e =? 0) && (e <? d))
    (map Z.of_nat (seq 2 40)).

Fixpoint zrange (lo : Z) (n : nat) : list Z :=
  match n with O => [] | S n' => lo :: zrange (lo + 1) n' end.

Lemma zrange_in : forall n lo x, lo <= x < lo + Z.of_nat n -> In x (zrange lo n).
Proof.
  induction n as [|n IH]; intros lo x H; [lia|].
  simpl. destruct (Z.eq_dec lo x); [left; assumption|right].
  apply IH. lia.
Qed.

(** The table is gap-free: between consecutive entries there is no prime. *)
Fixpoint chain (lo : Z) (ps : list Z) : bool :=
  match ps with
  | [] => true
  | t :: ps' =>
      (lo <=? t) && (2 <? t) && (t <? 1000) &&
      forallb (fun d => composite_b d || (d =? 2)) (zrange lo (Z.to_nat (t - lo)))
      && chain (t + 1) ps'
  end.

Lemma composite_b_sound : forall d, composite_b d = true -> ~ prime d.
Proof.
  intros d H Hp. unfold composite_b in H.
  apply existsb_exists in H. destruct H as [e [He H]].
  apply andb_true_iff in H. destruct H as [H1 H2].
  apply in_map_iff in He. destruct He as [k [Hk1 Hk2]]. apply in_seq in Hk2.
  assert (Hdiv : (e | d)) by (apply Z.mod_divide; lia).
  apply prime_divisors in Hdiv; [|assumption]. lia.
Qed.

Lemma chain_no_prime : forall lo t ps d,
  chain lo (t :: ps) = true -> lo <= d < t -> prime d -> d = 2.
Proof.
  intros lo t ps d H Hd Hp. simpl in H.
  repeat (apply andb_true_iff in H; destruct H as [H ?]).
  rewrite forallb_forall in H1.
  assert (Hin : In d (zrange lo (Z.to_nat (t - lo)))) by (apply zrange_in; lia).
  apply H1 in Hin. apply orb_true_iff in Hin. destruct Hin as [Hc|Hc].
  - exfalso. eapply composite_b_sound; eauto.
  - lia.
Qed.

Lemma chain_head : forall lo t ps, chain lo (t :: ps) = true ->
  lo <= t /\ 2 < t < 1000 /\ chain (t + 1) ps = true.
Proof.
  intros lo t ps H. simpl in H.
  repeat (apply andb_true_iff in H; destruct H as [H ?]). repeat split; try lia; auto.
Qed.

Lemma isPrime_loop_spec : forall ps lo n b,
  1 < n -> ~ (2 | n) -> chain lo ps = true ->
  (forall p, prime p -> p < lo -> ~ (p | n)) ->
  isPrime_loop ps n = Ok b ->
  if b then prime n else ~ prime n.
Proof.
  induction ps as [|t ps IH]; intros lo n b Hn H2 Hc Hlo Hr; simpl in Hr; [discriminate|].
  destruct (chain_head _ _ _ Hc) as [Ht1 [Ht2 Hc']].
  assert (Hu : u32 (t * t) = t * t) by (unfold u32, two32; apply Z.mod_small; nia).
  rewrite Hu in Hr.
  assert (Hlo' : forall p, prime p -> p < t -> ~ (p | n)).
  { intros p Hp Hlt. destruct (Z_lt_ge_dec p lo); [auto|].
    rewrite (chain_no_prime lo t ps p Hc); auto; lia. }
  destruct (t * t >? n) eqn:E1.
  - inversion Hr; subst. destruct (prime_dec n) as [|Hnp]; [assumption|exfalso].
    destruct (small_prime_factor n Hn Hnp) as [p [Hp1 [Hp2 Hp3]]].
    apply (Hlo' p); auto. apply prime_ge_2 in Hp1. nia.
  - destruct (n mod t =? 0) eqn:E2.
    + inversion Hr; subst. intro Hp.
      assert (Hd : (t | n)) by (apply Z.mod_divide; lia).
      apply prime_divisors in Hd; [|assumption]. nia.
    + apply (IH (t + 1) n b); auto.
      intros p Hp Hlt. destruct (Z.eq_dec p t); [subst|apply Hlo'; auto; lia].
      intro Hd. apply Z.mod_divide in Hd; lia.
Qed.

Lemma isPrime_loop_no_die : forall ps n,
  (exists t, In t ps /\ 0 < t < 1000 /\ (n < t * t \/ n mod t = 0)) ->
  exists b, isPrime_loop ps n = Ok b.
Proof.
  induction ps as [|s ps IH]; intros n [t [Hin [Ht1 Ht2]]]; [destruct Hin|].
  simpl. destruct (u32 (s * s) >? n) eqn:E1; [eauto|].
  destruct (n mod s =? 0) eqn:E2; [eauto|].
  apply IH. exists t. split; [|auto].
  destruct Hin as [->|]; [exfalso|assumption].
  assert (Hu : u32 (t * t) = t * t) by (unfold u32, two32; apply Z.mod_small; nia).
  rewrite Hu in E1. lia.
Qed.

Lemma chain_primes : chain 2 primes = true.
Proof. vm_compute. reflexivity. Qed.

Lemma land1_even : forall n, Z.land n 1 = n mod 2.
Proof. intro n. change 1 with (Z.ones 1). rewrite Z.land_ones by lia. reflexivity. Qed.

Lemma isPrime_correct : forall n, 1 <= n <= 994009 ->
  exists b, isPrime n = Ok b /\ (b = true <-> prime n).
Proof.
  intros n Hn. unfold isPrime.
  destruct (n =? 2) eqn:E2.
  { exists true. split; [reflexivity|]. assert (n = 2) by lia. subst.
    split; auto. intros; apply prime_2. }
  rewrite land1_even.
  destruct ((n =? 1) || (n mod 2 =? 0)) eqn:E1.
  { exists false. split; [reflexivity|]. split; [discriminate|]. intro Hp. exfalso.
    apply orb_true_iff in E1. destruct E1 as [E1|E1].
    - apply prime_ge_2 in Hp. lia.
    - assert (Hd : (2 | n)) by (apply Z.mod_divide; lia).
      apply prime_divisors in Hd; [|assumption]. lia. }
  apply orb_false_iff in E1. destruct E1 as [E1 E3].
  assert (Hnd : ~ (2 | n)) by (intro Hd; apply Z.mod_divide in Hd; lia).
  destruct (isPrime_loop_no_die primes n) as [b Hb].
  { exists 997. split; [unfold primes; simpl; tauto|]. split; [lia|].
    destruct (Z.eq_dec n 994009); [right; subst; reflexivity|left; lia]. }
  exists b. split; [assumption|].
  assert (Hs := isPrime_loop_spec primes 2 n b).
  assert (Hs' : if b then prime n else ~ prime n).
  { apply Hs; [lia|assumption|apply chain_primes| |assumption].
    intros p Hp Hlt. apply prime_ge_2 in Hp. lia. }
  destruct b; split; auto; try discriminate; intros; contradiction.
Qed.

Lemma even_not_prime : forall n, 2 < n -> n mod 2 = 0 -> ~ prime n.
Proof.
  intros n Hn He Hp.
  assert (Hd : (2 | n)) by (apply Z.mod_divide; lia).
  apply prime_divisors in Hd; [|assumption]. lia.
Qed.

Lemma primeBelow_loop_correct : forall fuel n,
  3 <= n <= 994009 -> n mod 2 = 1 -> n <= Z.of_nat fuel + 2 ->
  exists p, primeBelow_loop fuel n = Ok p /\ prime p /\ p <= n /\
            (forall q, prime q -> q <= n -> q <= p).
Proof.
  induction fuel as [|fuel IH]; intros n Hn Hodd Hf; [lia|].
  simpl. destruct (isPrime_correct n) as [b [Hb Hiff]]; [lia|].
  rewrite Hb. simpl. destruct b.
  - exists n. split; [reflexivity|]. split; [apply Hiff; reflexivity|]. split; [lia|auto].
  - assert (Hnp : ~ prime n) by (intro H; apply Hiff in H; discriminate).
    assert (n <> 3) by (intro; subst; apply Hnp, prime_3).
    assert (Hn5 : 5 <= n).
    { destruct (Z.eq_dec n 4); [subst; discriminate|lia]. }
    assert (Hu : u32 (n - 2) = n - 2) by (unfold u32, two32; apply Z.mod_small; lia).
    rewrite Hu.
    assert (Hm : (n - 2) mod 2 = 1)
      by (replace (n - 2) with (n + (-1) * 2) by lia; rewrite Z_mod_plus_full; assumption).
    destruct (IH (n - 2)) as [p [Hp1 [Hp2 [Hp3 Hp4]]]]; auto; try lia.
    exists p. split; [assumption|]. split; [assumption|]. split; [lia|].
    intros q Hq Hle.
    destruct (Z.eq_dec q n); [subst; contradiction|].
    destruct (Z.eq_dec q (n - 1)).
    + exfalso. apply (even_not_prime q); auto; [lia|]. subst q.
      rewrite Zminus_mod, Hodd. reflexivity.
    + apply Hp4; auto. lia.
Qed.

Lemma primeBelow_correct : forall n, 2 <= n ->
  exists p, primeBelow n = Ok p /\ prime p /\ p <= Z.min n 994009 /\
            (forall q, prime q -> q <= Z.min n 994009 -> q <= p).
Proof.
  intros n0 Hn0. unfold primeBelow.
  set (n := if n0 >=? 994009 then 994009 else n0).
  assert (Hmin : Z.min n0 994009 = n) by (unfold n; destruct (n0 >=? 994009) eqn:E; lia).
  rewrite Hmin.
  assert (Hn : 2 <= n <= 994009) by lia.
  clearbody n. clear n0 Hn0 Hmin.
  destruct (n <? 2) eqn:E1; [lia|].
  destruct (n <? 4) eqn:E2.
  { exists n. split; [reflexivity|]. split; [|split; [lia|auto]].
    assert (n = 2 \/ n = 3) as [->| ->] by lia; [apply prime_2|apply prime_3]. }
  rewrite land1_even.
  set (m := if n mod 2 =? 0 then n - 1 else n).
  assert (Hm : 3 <= m <= 994009 /\ m mod 2 = 1 /\ m <= n /\ (m = n \/ (m = n - 1 /\ n mod 2 = 0))).
  { unfold m. destruct (n mod 2 =? 0) eqn:E.
    - repeat split; try lia. rewrite Zminus_mod. replace (n mod 2) with 0 by lia. reflexivity.
    - repeat split; try lia. assert (0 <= n mod 2 < 2) by (apply Z.mod_pos_bound; lia). lia. }
  destruct Hm as [Hm1 [Hm2 [Hm3 Hm4]]].
  destruct (primeBelow_loop_correct (Z.to_nat m) m) as [p [Hp1 [Hp2 [Hp3 Hp4]]]]; auto; try lia.
  exists p. split; [assumption|]. split; [assumption|]. split; [lia|].
  intros q Hq Hle. destruct Hm4 as [->|[Hm4 He]]; auto.
  destruct (Z.eq_dec q n).
  - subst q. exfalso. apply (even_not_prime n); auto. lia.
  - apply Hp4; auto. lia.
Qed.
