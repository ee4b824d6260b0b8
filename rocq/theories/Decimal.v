(** * Decimal text of doubles, as std::ostream writes them and std::istream reads them

    [operator<<(double)] with the default flags of an ofstream or ostringstream
    (nothing in the code base touches them before writing particle data) is
    [printf("%g")] with 6 significant digits, in the "C" locale.
    [operator>>(double)] collects the longest prefix that looks like a number and
    converts all of it with [strtod], which rounds correctly (to nearest, ties to
    even).  The C library is not part of /repo; this file is the model of it that the
    file formats rely on (C++17 [facet.num.put.virtuals], [facet.num.get.virtuals];
    the collecting loop is that of libstdc++).

    Simplifications: a NaN is printed as "nan" (its sign is not modelled); hexadecimal
    floats are not read. *)
From Coq Require Import Reals.
From Flocq Require Import Core.Zaux Core.Raux Core.Defs Core.Generic_fmt Core.Float_prop Core.FLX Core.FLT Calc.Bracket Calc.Div Calc.Round.
From Verif Require Export Text NumF.
Open Scope list_scope.
Open Scope Z_scope.

(** ** Printing: 6 significant digits *)

(** a positive number m * 2^e as a fraction *)
Definition ratio (m : positive) (e : Z) : Z * Z :=
  if 0 <=? e then (Zpos m * 2 ^ e, 1) else (Zpos m, 2 ^ (- e)).
(** 10^X <= p/q *)
Definition pow_le (X p q : Z) : bool :=
  if 0 <=? X then 10 ^ X * q <=? p else q <=? p * 10 ^ (- X).
(** 10^X <= p/q < 10^(X+1) *)
Definition leading (p q X : Z) : bool := pow_le X p q && negb (pow_le (X + 1) p q).
Fixpoint search10 (fuel : nat) (p q X : Z) : Z :=
  match fuel with
  | O => X
  | S fuel' => if leading p q X then X else search10 fuel' p q (X + 1)
  end.
(** the decimal exponent of p/q (guessed from the binary one, checked, searched for if the guess fails) *)
Definition exp10 (p q : Z) : Z :=
  let X := (Z.log2 p - Z.log2 q) * 1233 / 4096 in
  if leading p q X then X
  else if leading p q (X + 1) then X + 1
  else if leading p q (X - 1) then X - 1
  else search10 (Z.to_nat 800) p q (-400).
(** a/b rounded to an integer, to nearest, ties to even *)
Definition round_div (a b : Z) : Z :=
  let d := a / b in
  match 2 * (a mod b) ?= b with
  | Lt => d
  | Gt => d + 1
  | Eq => if Z.even d then d else d + 1
  end.
(** m * 2^e rounded to 6 significant digits: D * 10^(X-5) with 10^5 <= D < 10^6 *)
Definition dec6 (m : positive) (e : Z) : Z * Z :=
  let '(p, q) := ratio m e in
  let X := exp10 p q in
  let D := if X <=? 5 then round_div (p * 10 ^ (5 - X)) q else round_div p (q * 10 ^ (X - 5)) in
  if D =? 1000000 then (100000, X + 1) else (D, X).

(** remove up to [fuel] trailing zeros; returns what is left and how many were removed *)
Fixpoint strip (fuel : nat) (D : Z) : Z * nat :=
  match fuel with
  | O => (D, O)
  | S fuel' => if D mod 10 =? 0 then let '(D', k) := strip fuel' (D / 10) in (D', S k) else (D, O)
  end.
Definition digit_text (z : Z) : list ascii := map digit_char (digits z).
Definition zeros (n : nat) : list ascii := repeat "0"%char n.
(** %g: fixed notation for exponents -4 .. 5, otherwise scientific with at least two exponent digits *)
Definition layout (D X : Z) : list ascii :=
  let '(D', k) := strip 5 D in
  let ds := digit_text D' in
  if (-4 <=? X) && (X <? 6) then
    if 0 <=? X then
      let n := Z.to_nat (X + 1) in
      if (List.length ds <=? n)%nat then ds ++ zeros (n - List.length ds)
      else firstn n ds ++ "."%char :: skipn n ds
    else "0"%char :: "."%char :: zeros (Z.to_nat (- X - 1)) ++ ds
  else
    firstn 1 ds ++ (if (List.length ds <=? 1)%nat then [] else "."%char :: skipn 1 ds)
    ++ "e"%char :: (if X <? 0 then "-"%char else "+"%char)
    :: (let es := digit_text (Z.abs X) in zeros (2 - List.length es) ++ es).
Definition sign_text (s : bool) : list ascii := if s then ["-"%char] else [].
(** out << x *)
Definition show (x : f64) : list ascii :=
  match x with
  | B754_nan => list_ascii_of_string "nan"
  | B754_infinity s => sign_text s ++ list_ascii_of_string "inf"
  | B754_zero s => sign_text s ++ ["0"%char]
  | B754_finite s m e _ => sign_text s ++ (let '(D, X) := dec6 m e in layout D X)
  end.

(** out << i *)
Definition showZ (z : Z) : list ascii :=
  if z <? 0 then "-"%char :: digit_text (- z) else digit_text z.

(** ** Reading: decimal numerals and their correctly rounded double *)

Definition char_digit (c : ascii) : option Z :=
  let n := Z.of_N (N_of_ascii c) in
  if (48 <=? n) && (n <=? 57) then Some (n - 48) else None.
Definition is_digit (c : ascii) : bool := match char_digit c with Some _ => true | None => false end.
Definition is_sign (c : ascii) : bool := Ascii.eqb c "+" || Ascii.eqb c "-".
Definition is_exp (c : ascii) : bool := Ascii.eqb c "e" || Ascii.eqb c "E".

(** the digits at the front: their value appended to [acc], how many, and what follows *)
Fixpoint scan (acc : Z) (n : nat) (l : list ascii) : Z * nat * list ascii :=
  match l with
  | [] => (acc, n, [])
  | c :: r => match char_digit c with
              | Some d => scan (acc * 10 + d) (S n) r
              | None => (acc, n, l)
              end
  end.
Definition scan_sign (l : list ascii) : bool * list ascii :=
  match l with
  | c :: r => if Ascii.eqb c "-" then (true, r) else if Ascii.eqb c "+" then (false, r) else (false, l)
  | [] => (false, [])
  end.
(** A decimal numeral at the front of [l], as strtod reads it: sign, digits with an
    optional point, optional exponent (only if it has digits).  Result: negative?,
    N, E with value N * 10^E, and the rest. *)
Definition numeral (l : list ascii) : option (bool * Z * Z * list ascii) :=
  let '(neg, l1) := scan_sign l in
  let '(a, n, l2) := scan 0 0 l1 in
  let '(b, k, l3) :=
    match l2 with
    | c :: r => if Ascii.eqb c "." then let '(b, k, r') := scan a 0 r in
                                         if (n + k =? 0)%nat then (a, O, l2) else (b, k, r')
                else (a, O, l2)
    | [] => (a, O, l2)
    end in
  if (n + k =? 0)%nat then None
  else
    let E := - Z.of_nat k in
    match l3 with
    | c :: r =>
        if is_exp c then
          let '(eneg, r1) := scan_sign r in
          let '(x, j, r2) := scan 0 0 r1 in
          if (j =? 0)%nat then Some (neg, b, E, l3)
          else Some (neg, b, E + (if eneg then - x else x), r2)
        else Some (neg, b, E, l3)
    | [] => Some (neg, b, E, l3)
    end.

(** the positive fraction p/q rounded to the nearest double (infinity on overflow) *)
Definition div_round (s : bool) (p q : positive) : SpecFloat.spec_float :=
  let '(m, e, l) := Fdiv (SpecFloat.fexp 53 1024) (Float radix2 (Zpos p) 0) (Float radix2 (Zpos q) 0) in
  binary_round_aux 53 1024 mode_NE s m e l.
Lemma div_round_x (s : bool) p q :
  let x := (if s then - (IZR (Zpos p) / IZR (Zpos q)) else IZR (Zpos p) / IZR (Zpos q))%R in
  let '(m, e, l) := Fdiv (SpecFloat.fexp 53 1024) (Float radix2 (Zpos p) 0) (Float radix2 (Zpos q) 0) in
  (x <> 0)%R /\ inbetween_float radix2 m e (Rabs x) l /\ e <= cexp radix2 (SpecFloat.fexp 53 1024) x /\ Rlt_bool x 0 = s.
Proof.
  intros x. assert (P : (0 < IZR (Zpos p))%R) by now apply IZR_lt. assert (Q : (0 < IZR (Zpos q))%R) by now apply IZR_lt.
  assert (PQ : (0 < IZR (Zpos p) / IZR (Zpos q))%R) by now apply Rdiv_lt_0_compat.
  assert (FP : F2R (Float radix2 (Zpos p) 0) = IZR (Zpos p)) by (unfold F2R; cbn; ring).
  assert (FQ : F2R (Float radix2 (Zpos q) 0) = IZR (Zpos q)) by (unfold F2R; cbn; ring).
  assert (Ax : Rabs x = (IZR (Zpos p) / IZR (Zpos q))%R).
  { unfold x. destruct s; [rewrite Rabs_Ropp|]; apply Rabs_pos_eq; now apply Rlt_le. }
  generalize (@Fdiv_correct radix2 (SpecFloat.fexp 53 1024) (Float radix2 (Zpos p) 0) (Float radix2 (Zpos q) 0)).
  rewrite FP, FQ. intros H. specialize (H P Q). destruct (Fdiv _ _ _) as [[m e] l]. destruct H as [H1 H2].
  split; [|split; [|split]].
  - intros Z. rewrite Z, Rabs_R0 in Ax. rewrite <- Ax in PQ. now apply Rlt_irrefl in PQ.
  - now rewrite Ax.
  - rewrite <- cexp_abs, Ax. exact H1.
  - unfold x. destruct s; [apply Rlt_bool_true|apply Rlt_bool_false]; [apply Ropp_lt_gt_0_contravar; exact PQ|now apply Rlt_le].
Qed.
Lemma div_round_valid s p q : SpecFloat.valid_binary 53 1024 (div_round s p q) = true.
Proof.
  unfold div_round. generalize (div_round_x s p q). cbv zeta. destruct (Fdiv _ _ _) as [[m e] l]. intros (H1 & H2 & H3 & H4).
  pose proof (binary_round_aux_correct' 53 1024 _ _ mode_NE _ m e l H1 H2 H3) as H. cbv zeta in H. rewrite H4 in H. exact (proj1 H).
Qed.
(** the double nearest to (-1)^neg N 10^E *)
Definition of_dec (neg : bool) (N E : Z) : f64 :=
  match N with
  | Zpos n => if 0 <=? E then SF2B _ (div_round_valid neg (n * Z.to_pos (10 ^ E)) 1)
              else SF2B _ (div_round_valid neg n (Z.to_pos (10 ^ (- E))))
  | _ => B754_zero neg
  end.

(** ** std::istream >> double, >> int

    [collect] is the loop of libstdc++'s num_get: mantissa digit seen, point seen,
    exponent letter seen, exponent letter is the previous character. *)
Fixpoint collect (mant dot sci aft : bool) (l : list ascii) : list ascii * list ascii :=
  match l with
  | [] => ([], [])
  | c :: r =>
      let take '(t, r') := (c :: t, r') in
      if is_digit c then take (collect true dot sci false r)
      else if Ascii.eqb c "." && negb dot && negb sci then take (collect mant true sci false r)
      else if is_exp c && negb sci && mant then take (collect mant dot true true r)
      else if is_sign c && aft then take (collect mant dot sci false r)
      else ([], l)
  end.
Definition token (l : list ascii) : list ascii * list ascii :=
  match l with
  | c :: r => if is_sign c then let '(t, r') := collect false false false false r in (c :: t, r')
              else collect false false false false l
  | [] => ([], [])
  end.
Definition max_double : f64 := bits 9218868437227405311. (* DBL_MAX: 0x7FEFFFFFFFFFFFFF *)
(** what is stored, whether failbit stays clear, and the unread rest *)
Definition get_double (l : list ascii) : f64 * bool * list ascii :=
  let '(t, r) := token l in
  match numeral t with
  | Some (neg, N, E, []) =>
      let x := of_dec neg N E in
      if is_finite x then (x, true, r) else (if neg then Bopp max_double else max_double, false, r)
  | _ => (B754_zero false, false, r)
  end.
Definition get_int (l : list ascii) : Z * bool * list ascii :=
  let '(neg, l1) := scan_sign l in
  let '(a, n, r) := scan 0 0 l1 in
  if (n =? 0)%nat then (0, false, r)
  else let v := if neg then - a else a in
       if v <? int_min then (int_min, false, r)
       else if int_max <? v then (int_max, false, r)
       else (v, true, r).

(** isspace in the "C" locale *)
Definition is_space (c : ascii) : bool :=
  let n := N_of_ascii c in (n =? 32)%N || ((9 <=? n)%N && (n <=? 13)%N).
Fixpoint skip_ws (l : list ascii) : list ascii :=
  match l with
  | c :: r => if is_space c then skip_ws r else l
  | [] => []
  end.
(** A stream: unread characters, and whether failbit is set. *)
Record stream := mkStream { st_rest : list ascii; st_fail : bool }.
(** in >> v.  The sentry skips white space; at the end of the file, or with failbit
    already set, it fails and v keeps its old value ([None]: nothing is stored). *)
Definition extract {A} (get : list ascii -> A * bool * list ascii) (s : stream) : option A * stream :=
  if st_fail s then (None, s)
  else match skip_ws (st_rest s) with
       | [] => (None, mkStream [] true)
       | l => let '(a, ok, r) := get l in (Some a, mkStream r (negb ok))
       end.
