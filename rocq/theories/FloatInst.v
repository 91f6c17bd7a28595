(** IEEE 754 binary64 with rounding to nearest even: the arithmetic of double.

    The operations are those of the standard library's SpecFloat, which are ordinary
    functions on sign, mantissa and exponent; no primitive float and no axiom is used.
    A NaN has no payload and no sign here.  Every decimal literal of the modelled code has
    a numerator below 2^53 and a power of ten below 10^23, both exact, so that [dec]
    rounds once and is the double of the literal.  Contracted multiply-adds and extended
    precision are not modelled: the build files of /repo ask for neither. *)
From Coq Require Import Floats.SpecFloat.
From Verif Require Import Base Scalar.

Definition f64_prec : Z := 53.
Definition f64_emax : Z := 1024.
Notation double := spec_float.
Definition NaN : double := S754_nan.

#[global] Instance F64 : Ops double := {
  ofZ z := binary_normalize f64_prec f64_emax z 0 false;
  oadd := SFadd f64_prec f64_emax;
  osub := SFsub f64_prec f64_emax;
  omul := SFmul f64_prec f64_emax;
  odiv := SFdiv f64_prec f64_emax;
  oopp := SFopp;
  osqrt := SFsqrt f64_prec f64_emax;
  oabs := SFabs;
  oltb := SFltb }.

(** the double with sign, mantissa and exponent as printed by %a *)
Definition dbl (m e : Z) : double := binary_normalize f64_prec f64_emax m e false.

(** 0.577350269189626, 1.0e-8, 1.0e-5 and 0.1 + 0.2 *)
Example literals :
  (dec 577350269189626 15 = dbl 5200308914369310 (-53) /\
   dec 1 8 = dbl 6044629098073146 (-79) /\
   dec 1 5 = dbl 5902958103587057 (-69) /\
   oadd (dec 1 1) (dec 2 1) = dbl 5404319552844596 (-54))%Z.
Proof. vm_compute. auto. Qed.
