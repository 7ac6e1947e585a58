(** Model of src/lib/prime.c. *)
From Verif Require Import Base.

(** prime.c:9-177, without the terminating 0. *)
Definition primes : list Z :=
  [3; 5; 7; 11; 13; 17; 19; 23; 29; 31; 37; 41; 43; 47; 53; 59; 61; 67;
   71; 73; 79; 83; 89; 97; 101; 103; 107; 109; 113; 127; 131; 137; 139;
   149; 151; 157; 163; 167; 173; 179; 181; 191; 193; 197; 199; 211; 223;
   227; 229; 233; 239; 241; 251; 257; 263; 269; 271; 277; 281; 283; 293;
   307; 311; 313; 317; 331; 337; 347; 349; 353; 359; 367; 373; 379; 383;
   389; 397; 401; 409; 419; 421; 431; 433; 439; 443; 449; 457; 461; 463;
   467; 479; 487; 491; 499; 503; 509; 521; 523; 541; 547; 557; 563; 569;
   571; 577; 587; 593; 599; 601; 607; 613; 617; 619; 631; 641; 643; 647;
   653; 659; 661; 673; 677; 683; 691; 701; 709; 719; 727; 733; 739; 743;
   751; 757; 761; 769; 773; 787; 797; 809; 811; 821; 823; 827; 829; 839;
   853; 857; 859; 863; 877; 881; 883; 887; 907; 911; 919; 929; 937; 941;
   947; 953; 967; 971; 977; 983; 991; 997].

(** prime.c:185-194, the loop over the prime table (falling off the table is
    the die() of line 194). *)
Fixpoint isPrime_loop (ps : list Z) (n : Z) : outcome bool :=
  match ps with
  | [] => Die
  | t :: ps' =>
      if u32 (t * t) >? n then Ok true
      else if n mod t =? 0 then Ok false
      else isPrime_loop ps' n
  end.

(** prime.c:180-195. *)
Definition isPrime (n : Z) : outcome bool :=
  if n =? 2 then Ok true
  else if (n =? 1) || (Z.land n 1 =? 0) then Ok false
  else isPrime_loop primes n.

(** prime.c:207-210, [while (!isPrime(n)) n -= 2]. *)
Fixpoint primeBelow_loop (fuel : nat) (n : Z) : outcome Z :=
  match fuel with
  | O => Fuel
  | S fuel' =>
      do b <- isPrime n;
      if b then Ok n else primeBelow_loop fuel' (u32 (n - 2))
  end.

(** prime.c:198-211. *)
Definition primeBelow (n0 : Z) : outcome Z :=
  let n := if n0 >=? 994009 then 994009 else n0 in
  if n <? 2 then Die
  else if n <? 4 then Ok n
  else
    let n' := if Z.land n 1 =? 0 then n - 1 else n in
    primeBelow_loop (Z.to_nat n') n'.
