(** The averages that the tools print: a quotient of two totals in float or in double, and its
    text.  tools/build_tries.cpp:185, tools/build_fastTries.cpp:132, tools/measures.cpp:192-195,
    tools/classic_coders.cpp:103-105, tools/cbv_coding.cpp:97-99, tools/pom.cpp:135-138.

    Assumed of the C++ implementation: float and double are the binary formats of IEEE 754 with
    24 and 53 bits, rounded to nearest, and expressions are evaluated in their own type.
    Simplification: exponents are not bounded; those of quotients of 64-bit numbers fit. *)

From Coq Require Import ZArith.
From Verif Require Import Base Text Table Report Stats.

(** [n / d] to the nearest integer, to the even one in the middle.  The rounding of one
    floating-point operation, used by the divisions and conversions of
    tools/build_tries.cpp:185, tools/measures.cpp:192-195, tools/classic_coders.cpp:103-105,
    tools/cbv_coding.cpp:97-99, tools/pom.cpp:135-138. *)
Definition round_div (n d : N) : N :=
  let q := (n / d)%N in
  match N.compare (2 * (n mod d)) d with
  | Lt => q
  | Eq => if N.even q then q else (q + 1)%N
  | Gt => (q + 1)%N
  end.

(** [n / d / base ^ e] as a fraction.  A step of the conversions below:
    tools/build_tries.cpp:185, tools/measures.cpp:192-195, tools/classic_coders.cpp:103-105,
    tools/cbv_coding.cpp:97-99, tools/pom.cpp:135-138. *)
Definition scaled (base n d : N) (e : Z) : N * N :=
  match e with
  | Z0 => (n, d)
  | Zpos k => (n, d * base ^ Npos k)%N
  | Zneg k => (n * base ^ Npos k, d)%N
  end.

(** [n / d], not zero, to a float of [p] bits: significand and exponent.  The operands and
    quotients of tools/build_tries.cpp:185, tools/measures.cpp:192-195,
    tools/classic_coders.cpp:103-105, tools/cbv_coding.cpp:97-99, tools/pom.cpp:135-138. *)
Definition to_float (p n d : N) : N * Z :=
  let e0 := (Z.of_N (N.log2 n) - Z.of_N (N.log2 d) - Z.of_N p)%Z in
  let (n0, d0) := scaled 2 n d e0 in
  let e := if (d0 * 2 ^ p <=? n0)%N then (e0 + 1)%Z else e0 in
  let (n1, d1) := scaled 2 n d e in
  (round_div n1 d1, e).

(** (float) n, (double) n.  The conversions in tools/build_tries.cpp:185,
    tools/measures.cpp:192-195, tools/classic_coders.cpp:103-105, tools/cbv_coding.cpp:97-99,
    tools/pom.cpp:135-138. *)
Definition float_of (p n : N) : N * Z := if N.eqb n 0 then (0%N, 0%Z) else to_float p n 1.

(** Values of a quotient that is not negative.  The printed quotients:
    tools/build_tries.cpp:185, tools/measures.cpp:192-195, tools/classic_coders.cpp:103-105,
    tools/cbv_coding.cpp:97-99, tools/pom.cpp:135-138. *)
Inductive quotient :=
| NotANumber
| Infinite
| Finite (x : N * Z).

(** The division of two floats: tools/build_tries.cpp:185, tools/measures.cpp:192-195,
    tools/classic_coders.cpp:103-105, tools/cbv_coding.cpp:97-99, tools/pom.cpp:135-138. *)
Definition float_div (p : N) (a b : N * Z) : quotient :=
  let (m1, e1) := a in
  let (m2, e2) := b in
  if N.eqb m2 0 then (if N.eqb m1 0 then NotANumber else Infinite)
  else if N.eqb m1 0 then Finite (0%N, 0%Z)
  else let (n, d) := scaled 2 m1 m2 (e2 - e1) in Finite (to_float p n d).

(** The exponent [x] with [10 ^ x <= n / d < 10 ^ (x + 1)].  A step of operator<< on a quotient:
    tools/build_tries.cpp:185, tools/measures.cpp:192-195, tools/classic_coders.cpp:103-105,
    tools/cbv_coding.cpp:97-99, tools/pom.cpp:135-138. *)
Fixpoint exponent_up (fuel : nat) (n d : N) (x : Z) : result Z :=
  if (n <? 10 * d)%N then Ok x
  else match fuel with
       | O => OutOfFuel
       | S fuel' => exponent_up fuel' n (10 * d) (x + 1)
       end.

(** The same below one, a step of operator<< on a quotient: tools/build_tries.cpp:185,
    tools/measures.cpp:192-195, tools/classic_coders.cpp:103-105, tools/cbv_coding.cpp:97-99,
    tools/pom.cpp:135-138. *)
Fixpoint exponent_down (fuel : nat) (n d : N) (x : Z) : result Z :=
  if (d <=? n)%N then Ok x
  else match fuel with
       | O => OutOfFuel
       | S fuel' => exponent_down fuel' (10 * n) d (x - 1)
       end.

(** The exponent of the first digit, a step of operator<< on a quotient:
    tools/build_tries.cpp:185, tools/measures.cpp:192-195, tools/classic_coders.cpp:103-105,
    tools/cbv_coding.cpp:97-99, tools/pom.cpp:135-138. *)
Definition exponent10 (n d : N) : result Z :=
  if (d <=? n)%N then exponent_up (N.to_nat (N.log2 n)) n d 0
  else exponent_down (S (N.to_nat (N.log2 d))) n d 0.

(** Six significant digits and the exponent of the first one.  A step of operator<< on a
    quotient: tools/build_tries.cpp:185, tools/measures.cpp:192-195,
    tools/classic_coders.cpp:103-105, tools/cbv_coding.cpp:97-99, tools/pom.cpp:135-138. *)
Definition to_decimal (n d : N) : result (N * Z) :=
  let* x := exponent10 n d in
  let (n1, d1) := scaled 10 n d (x - 5) in
  let m := round_div n1 d1 in
  Ok (if N.eqb m (10 ^ 6) then ((10 ^ 5)%N, (x + 1)%Z) else (m, x)).

(** Zeros at the end are not printed, nor a point with nothing behind it.  A step of operator<<
    on a quotient: tools/build_tries.cpp:185, tools/measures.cpp:192-195,
    tools/classic_coders.cpp:103-105, tools/cbv_coding.cpp:97-99, tools/pom.cpp:135-138. *)
Fixpoint strip_zeros (l : list N) : list N :=
  match l with
  | [] => []
  | c :: l' => match strip_zeros l' with
               | [] => if N.eqb c 48 then [] else [c]
               | s => c :: s
               end
  end.

(** The point and what follows it, a step of operator<< on a quotient:
    tools/build_tries.cpp:185, tools/measures.cpp:192-195, tools/classic_coders.cpp:103-105,
    tools/cbv_coding.cpp:97-99, tools/pom.cpp:135-138. *)
Definition print_fraction (l : list N) : list N :=
  match strip_zeros l with
  | [] => []
  | s => 46%N :: s
  end.

(** "e", the sign and at least two digits, a step of operator<< on a quotient:
    tools/build_tries.cpp:185, tools/measures.cpp:192-195, tools/classic_coders.cpp:103-105,
    tools/cbv_coding.cpp:97-99, tools/pom.cpp:135-138. *)
Definition print_exponent (x : Z) : list N :=
  let w := print_number (Z.to_N (Z.abs x)) in
  101%N :: (if (x <? 0)%Z then 45%N else 43%N) :: (if length w <? 2 then 48%N :: w else w).

(** [operator<<] with the default precision of six digits, as %g of printf.  It prints the
    quotients of tools/build_tries.cpp:185, tools/measures.cpp:192-195,
    tools/classic_coders.cpp:103-105, tools/cbv_coding.cpp:97-99, tools/pom.cpp:135-138. *)
Definition print_six (m : N) (x : Z) : list N :=
  let ds := print_number m in
  if ((x <? -4) || (6 <=? x))%Z%bool then firstn 1 ds ++ print_fraction (skipn 1 ds) ++ print_exponent x
  else if (x <? 0)%Z then 48%N :: print_fraction (repeat 48%N (Z.to_nat (- x - 1)) ++ ds)
  else firstn (Z.to_nat (x + 1)) ds ++ print_fraction (skipn (Z.to_nat (x + 1)) ds).

(** What is printed of a quotient; the texts of infinity and of what is not a number are left
    out.  It prints the quotients of tools/build_tries.cpp:185, tools/measures.cpp:192-195,
    tools/classic_coders.cpp:103-105, tools/cbv_coding.cpp:97-99, tools/pom.cpp:135-138. *)
Definition print_quotient (q : quotient) : result (option (list N)) :=
  match q with
  | NotANumber | Infinite => Ok None
  | Finite (m, e) =>
    if N.eqb m 0 then Ok (Some [48%N])
    else let (n, d) := scaled 2 m 1 (- e) in
         let* (ds, x) := to_decimal n d in
         Ok (Some (print_six ds x))
  end.

(** (float) a / b, and (double) a / b, for integers of 64 bits.  The expressions of
    tools/measures.cpp:192-195 and tools/pom.cpp:138. *)
Definition average (p a b : N) : result (option (list N)) :=
  print_quotient (float_div p (float_of p a) (float_of p b)).

(** (double) a * 8 / b.  The expressions of tools/classic_coders.cpp:103-105 and
    tools/cbv_coding.cpp:97-99. *)
Definition average_bytes (p a b : N) : result (option (list N)) :=
  print_quotient (float_div p (let (m, e) := float_of p a in (m, e + 3)%Z) (float_of p b)).

(** "Bpi: ", (float)(total_size*8)/total_elements: tools/build_tries.cpp:185,
    tools/build_fastTries.cpp:132. *)
Definition report_bpi (r : report) : result (option (list N)) :=
  average 24 ((r_size r * 8) mod 2 ^ 64) (r_ints r).

(** No code of its own: the columns are printed one after the other,
    tools/measures.cpp:192-195. *)
Fixpoint each_result {A B} (f : A -> result B) (l : list A) : result (list B) :=
  match l with
  | [] => Ok []
  | a :: l' => let* b := f a in let* bs := each_result f l' in Ok (b :: bs)
  end.

(** "Avg Gap", "Avg RLE", "Avg Trie", "Trie run": tools/measures.cpp:192-195. *)
Definition measured_bpi (m : measured) : result (list (option (list N))) :=
  let* gap := average 24 (m_gap m) (m_ints m) in
  let* others := each_result (fun a => average 53 a (m_ints m)) [m_rle m; m_trie m; m_trie_run m] in
  Ok (gap :: others).

(** The averages of the totals of bytes: tools/classic_coders.cpp:103-105,
    tools/cbv_coding.cpp:97-99. *)
Definition coded_bpi (t : totals) : result (list (option (list N))) :=
  each_result (fun a => average_bytes 53 a (t_ints t)) (t_cols t).

(** tools/pom.cpp:135-138: three totals of bytes, multiplied as integers, and one of bits. *)
Definition pom_bpi (t : totals) : result (list (option (list N))) :=
  match t_cols t with
  | [ed; eg; fib; theory] =>
    each_result (fun a => average 53 a (t_ints t))
      [(ed * 8) mod 2 ^ 64; (eg * 8) mod 2 ^ 64; (fib * 8) mod 2 ^ 64; theory]%N
  | _ => UB Unmodelled
  end.
