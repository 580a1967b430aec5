(** * FloatSingle: IEEE single precision (round to nearest, ties to even, subnormals) as an instance of [arith].

    JAX computes in single precision by default. Rounding is Flocq's (radix 2, 24 bits, least exponent -149).
    Simplifications: no overflow (the values under the bounds of SpecFloat.v stay far below 2^128); cos, sin, tan and
    the remainder are correctly rounded here (SpecFloat.v only asks for 1e-6 and one unit). *)
From Flocq Require Import Core.
From Verif Require Import Base Float.
Open Scope R_scope.

Definition rnd32 (x : R) : R := round radix2 (FLT_exp (-149) 24) ZnearestE x.

(** Every operation rounded separately. *)
Definition single_arith : arith := {|
  a_cvt := rnd32;
  a_add := fun x y => rnd32 (x + y); a_sub := fun x y => rnd32 (x - y);
  a_mul := fun x y => rnd32 (x * y); a_div := fun x y => rnd32 (x / y);
  a_mac := fun x y z => rnd32 (rnd32 (x * y) + z);
  a_dot2 := fun x1 y1 x2 y2 => rnd32 (rnd32 (x1 * y1) + rnd32 (x2 * y2));
  a_sqrt := fun x => rnd32 (sqrt x);
  a_cos := fun x => rnd32 (cos x); a_sin := fun x => rnd32 (sin x); a_tan := fun x => rnd32 (tan x);
  a_mod := fun x y => rnd32 (fmod x y) |}.
(** Products contracted with the sum that follows them. *)
Definition fused_arith : arith := {|
  a_cvt := rnd32;
  a_add := fun x y => rnd32 (x + y); a_sub := fun x y => rnd32 (x - y);
  a_mul := fun x y => rnd32 (x * y); a_div := fun x y => rnd32 (x / y);
  a_mac := fun x y z => rnd32 (x * y + z);
  a_dot2 := fun x1 y1 x2 y2 => rnd32 (x1 * y1 + rnd32 (x2 * y2));
  a_sqrt := fun x => rnd32 (sqrt x);
  a_cos := fun x => rnd32 (cos x); a_sin := fun x => rnd32 (sin x); a_tan := fun x => rnd32 (tan x);
  a_mod := fun x y => rnd32 (fmod x y) |}.
(** The compiler may contract in some places of the program and not in others. *)
Definition single (contract : stage -> bool) : stage -> arith :=
  fun g => if contract g then fused_arith else single_arith.
