(** * Instance of the model with IEEE 754 binary64 arithmetic (C++ double)

    Flocq's formalisation, rounding to nearest even.  NaNs are one value: their
    sign and payload are not modelled (no modelled operation depends on them). *)
From Flocq Require Export IEEE754.BinarySingleNaN.
From Flocq Require Import IEEE754.Bits.
From Verif Require Export Num.
Open Scope Z_scope.

Definition f64 := binary_float 53 1024.
#[global] Instance Hprec53 : FLX.Prec_gt_0 53 := eq_refl.
#[global] Instance Hmax53 : Prec_lt_emax 53 1024 := eq_refl.

(** the double with the given 64-bit pattern *)
Definition bits (z : Z) : f64 := Binary.B2BSN 53 1024 (b64_of_bits z).

Definition Fcmp (x y : f64) : option comparison := Bcompare x y.

#[global] Instance F64 : Num := {|
  num := f64;
  nofZ := fun z => binary_normalize 53 1024 _ _ mode_NE z 0 false;
  nadd := Bplus mode_NE;
  nsub := Bminus mode_NE;
  nmul := Bmult mode_NE;
  ndiv := Bdiv mode_NE;
  nneg := Bopp;
  nsqrt := Bsqrt mode_NE;
  nabs := Babs;
  nlt := fun x y => match Fcmp x y with Some Lt => true | _ => false end;
  nle := fun x y => match Fcmp x y with Some Lt => true | Some Eq => true | _ => false end;
  ntrunc := fun x => if is_finite x then Some (Btrunc x) else None
|}.
