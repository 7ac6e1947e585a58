(** C strings and the C library functions the code applies to them.

    A C string is the list of its characters before the terminating 0; a
    character is a number in 1..255.  The functions below are the C library's
    (ISO C 7.22.1.4, 7.24.5; POSIX strtok_r), they are not part of /repo:
    the model trusts that the library behaves like this. *)
From Coq Require Import String Ascii.
From Verif Require Import Base.

Notation chars := (list Z).

(** String literals. *)
Fixpoint str (s : string) : chars :=
  match s with
  | EmptyString => []
  | String c s' => Z.of_N (N_of_ascii c) :: str s'
  end.

(** strcmp(a, b) == 0 *)
Fixpoint streq (a b : chars) : bool :=
  match a, b with
  | [], [] => true
  | x :: a', y :: b' => (x =? y) && streq a' b'
  | _, _ => false
  end.

(** strchr(d, c) != NULL for a character c of a string *)
Definition inset (d : chars) (c : Z) : bool := existsb (Z.eqb c) d.

(** strspn / the rest after it *)
Fixpoint skip (p : Z -> bool) (s : chars) : chars :=
  match s with
  | [] => []
  | c :: s' => if p c then skip p s' else s
  end.
Fixpoint span (p : Z -> bool) (s : chars) : chars * chars :=
  match s with
  | [] => ([], [])
  | c :: s' => if p c then let (a, b) := span p s' in (c :: a, b) else ([], s)
  end.

(** One call of strtok_r(): skip delimiters; no token when the string is
    exhausted; else the token runs to the next delimiter, which is
    overwritten by 0, and saveptr points behind it. *)
Definition strtok_r (d : chars) (s : chars) : option (chars * chars) :=
  match skip (inset d) s with
  | [] => None
  | s1 =>
      let (tok, rest) := span (fun c => negb (inset d c)) s1 in
      Some (tok, match rest with [] => [] | _ :: r => r end)
  end.

(** The usual loop "for (t = strtok(..); t != NULL; t = strtok(NULL, ..))":
    all tokens.  Each token is non-empty, so [length s] calls suffice; the
    fuel [n] bounds them. *)
Fixpoint toks (n : nat) (d s : chars) : outcome (list chars) :=
  match strtok_r d s with
  | None => Ok []
  | Some (t, rest) =>
      match n with
      | O => Fuel
      | S n' => do l <- toks n' d rest; Ok (t :: l)
      end
  end.

(** strchr(s, c): the text before the first c and the text after it. *)
Fixpoint split_at (c : Z) (s : chars) : option (chars * chars) :=
  match s with
  | [] => None
  | x :: s' =>
      if x =? c then Some ([], s')
      else match split_at c s' with
           | None => None
           | Some (a, b) => Some (x :: a, b)
           end
  end.

(** isspace() in the C locale *)
Definition isspace (c : Z) : bool := (c =? 32) || ((9 <=? c) && (c <=? 13)).

(** Value of a digit character. *)
Definition digit (c : Z) : option Z :=
  if (48 <=? c) && (c <=? 57) then Some (c - 48)
  else if (97 <=? c) && (c <=? 122) then Some (c - 87)
  else if (65 <=? c) && (c <=? 90) then Some (c - 55)
  else None.

(** Digits of base b from the start of s: their value, how many, the rest. *)
Fixpoint digits (b acc n : Z) (s : chars) : Z * Z * chars :=
  match s with
  | [] => (acc, n, [])
  | c :: s' =>
      match digit c with
      | Some d => if d <? b then digits b (acc * b + d) (n + 1) s' else (acc, n, s)
      | None => (acc, n, s)
      end
  end.

Definition LONG_MAX : Z := 9223372036854775807.
Definition LONG_MIN : Z := -9223372036854775808.

Definition is_hex_digit (c : Z) : bool :=
  match digit c with Some d => d <? 16 | None => false end.

(** strtol(s, &endp, base) for base 10 or 0 (long is 64 bits): value and
    *endp.  Out of range values saturate. *)
Definition strtol (base : Z) (s : chars) : Z * chars :=
  let s1 := skip isspace s in
  let (neg, s2) :=
    match s1 with
    | c :: r => if c =? 45 then (true, r) else if c =? 43 then (false, r) else (false, s1)
    | [] => (false, s1)
    end in
  let '(b, s3) :=
    if base =? 0 then
      match s2 with
      | z :: x :: h :: r =>
          if (z =? 48) && ((x =? 120) || (x =? 88)) && is_hex_digit h
          then (16, h :: r)
          else if z =? 48 then (8, s2) else (10, s2)
      | z :: _ => if z =? 48 then (8, s2) else (10, s2)
      | [] => (10, s2)
      end
    else (base, s2) in
  let '(v, n, rest) := digits b 0 0 s3 in
  if n =? 0 then (0, s)
  else
    let w := if neg then - v else v in
    ((if LONG_MAX <? w then LONG_MAX else if w <? LONG_MIN then LONG_MIN else w), rest).

(** atoi(s): glibc computes (int)strtol(s, NULL, 10). *)
Definition atoi (s : chars) : Z := s32 (fst (strtol 10 s)).
