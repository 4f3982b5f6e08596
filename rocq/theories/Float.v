(** IEEE 754 binary64 arithmetic, as specified by Coq.Floats.SpecFloat
    (round to nearest even, precision 53, exponent bound 1024). *)

From Coq Require Import ZArith Floats.SpecFloat.
From stdpp Require Import prelude.

(** The C type [double]. NaN payloads are not distinguished. *)
Notation double := spec_float.

Definition dprec : Z := 53.
Definition demax : Z := 1024.

Definition d_add : double -> double -> double := SFadd dprec demax.
Definition d_sub : double -> double -> double := SFsub dprec demax.
Definition d_mul : double -> double -> double := SFmul dprec demax.
Definition d_div : double -> double -> double := SFdiv dprec demax.
Definition d_sqrt : double -> double := SFsqrt dprec demax.

(** [x < y], [x <= y], [x > y], [x >= y] in C: false if an operand is NaN. *)
Definition d_lt (x y : double) : bool := SFltb x y.
Definition d_le (x y : double) : bool := SFleb x y.
Definition d_gt (x y : double) : bool := SFltb y x.
Definition d_ge (x y : double) : bool := SFleb y x.

Definition d_zero : double := S754_zero false.
(** Conversion of an integer to double. *)
Definition d_of_Z (z : Z) : double := binary_normalize dprec demax z 0 false.
Definition d_of_nat (n : nat) : double := d_of_Z (Z.of_nat n).
Definition d_minus1 : double := d_of_Z (-1).
(** DBL_MAX. *)
Definition d_max : double := S754_finite false 9007199254740991 971.

(** A proper binary64 value (the specification's [double] also contains
    non-canonical triples, which no C value corresponds to). *)
Definition d_valid (x : double) : Prop := valid_binary dprec demax x = true.

Definition d_is_finite (x : double) : bool :=
  match x with S754_zero _ | S754_finite _ _ _ => true | _ => false end.

Example d_of_Z_1 : d_of_Z 1 = S754_finite false 4503599627370496 (-52).
Proof. reflexivity. Qed.
Example d_minus1_lt_zero : d_lt d_minus1 d_zero = true.
Proof. reflexivity. Qed.
Example d_max_valid : d_valid d_max.
Proof. reflexivity. Qed.
