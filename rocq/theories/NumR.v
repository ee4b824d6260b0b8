(** * Instance of the model with exact real arithmetic *)
From Coq Require Export Reals.
From Flocq Require Export Core.Raux.
From Verif Require Export Num.
Open Scope Z_scope.

(** Idealised numbers: [double] replaced by the mathematical reals, with division
    by zero, square roots of negative numbers etc. as in Coq's Reals (total
    functions); theorems about this instance state the side conditions they need. *)
#[global] Instance Rnum : Num := {|
  num := R;
  nofZ := IZR;
  nadd := Rplus;
  nsub := Rminus;
  nmul := Rmult;
  ndiv := Rdiv;
  nneg := Ropp;
  nsqrt := R_sqrt.sqrt;
  nabs := Rabs;
  nlt := Rlt_bool;
  nle := Rle_bool;
  ntrunc := fun x => Some (Ztrunc x)
|}.
