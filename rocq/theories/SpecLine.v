(** * What the lines on the console show (C62, C63) *)
From Coq Require Import Reals String.
From Flocq Require Import Core.Generic_fmt Core.FLX Core.Round_NE Core.Raux.
From Verif Require Export SpecConsole SpecXml.
Open Scope Z_scope.

(** to one significant digit, ties to even *)
Definition round1 (x : R) : R := round radix10 (FLX_exp 1) ZnearestE x.
(** [s] is a numeral of the finite double [x] rounded to one significant digit, which is the only one shown *)
Definition one_digit (x : f64) (s : string) : Prop :=
  exists ds fs ex, spells ds fs ex /\ s = text (sign_text (Bsign x) ++ spelled ds fs ex) /\ value (ds ++ fs) <= 9 /\
    (IZR (value (ds ++ fs)) * ten (exponent ex - Z.of_nat (List.length fs)) = Rabs (round1 (B2R x)))%R.

(** the line of the progress report *)
Definition progress_line (k : Z) (dt t fin : f64) (elapsed remain : string) (ave last : f64) (files : Z) (c : f64) (line : string) : Prop :=
  exists k' dt' t' fin' ave' last' files' c',
    line = (text k' ++ ": dt=" ++ dt' ++ "s   t=" ++ t' ++ "s   fin=" ++ fin' ++ "s   " ++ elapsed ++ "   " ++ remain ++
            "   ave=" ++ ave' ++ "s/step   last=" ++ last' ++ "s/step   out=" ++ text files' ++ "files   Courant=" ++ c' ++ newline)%string /\
    int_text k k' /\ one_digit dt dt' /\ decimals 3 t t' /\ decimals 1 fin fin' /\ decimals 3 ave ave' /\ decimals 3 last last' /\
    int_text files files' /\ decimals 2 c c'.
(** the short line on standard error: the step, at least four characters wide, and the time *)
Definition short_line (k : Z) (t : f64) (line : string) : Prop :=
  exists n k' t', line = (text (repeat " "%char n ++ k') ++ ": t=" ++ t' ++ "s" ++ newline)%string /\
    int_text k k' /\ (n + List.length k' = Nat.max 4 (List.length k'))%nat /\ decimals 3 t t'.
(** the warning about a particle *)
Definition warning_text (id : Z) (x : @vec F64) (lines : string) : Prop :=
  exists i a b c, lines = ("WARNING: particle " ++ text i ++ " is out of domain." ++ newline ++ "x = " ++ text a ++ " y = " ++ text b ++ " z = " ++ text c ++ newline)%string /\
    int_text id i /\ double_text (vx x) a /\ double_text (vy x) b /\ double_text (vz x) c.
Definition courant_text (c : f64) (line : string) : Prop :=
  exists a, line = ("ERROR: Courant number is larger than CFL condition. Courant = " ++ text a ++ newline)%string /\ double_text c a.
