(** C01: primeBelow (src/lib/prime.c). *)
From Coq Require Import Znumtheory.
From Verif Require Import Base Prime_Model Prime_Proofs.

(** C01 - for every n >= 2 the call returns normally with the largest prime that
    is not above min(n, 994009). *)
Theorem C01_primeBelow_largest_prime : forall n, 2 <= n ->
  exists p, primeBelow n = Ok p /\ prime p /\ p <= Z.min n 994009 /\
            (forall q, prime q -> q <= Z.min n 994009 -> q <= p).
Proof. exact primeBelow_correct. Qed.
Print Assumptions C01_primeBelow_largest_prime.

Example C01_ex_default : primeBelow 1000 = Ok 997.
Proof. vm_compute. reflexivity. Qed.
Example C01_ex_small : primeBelow 2 = Ok 2 /\ primeBelow 4 = Ok 3 /\ primeBelow 1 = Die.
Proof. vm_compute. auto. Qed.

(** The header (src/lib/prime.h:7-10) promises "if n >= 994009 then 994009 is
    always returned".  That is false: 994009 = 997^2 is not prime and the largest
    prime below it is returned. *)
Theorem C01_header_claim_refuted :
  exists n, 994009 <= n /\ primeBelow n = Ok 993997 /\ primeBelow n <> Ok 994009.
Proof. exists 994009. vm_compute. repeat split; discriminate. Qed.
Print Assumptions C01_header_claim_refuted.
