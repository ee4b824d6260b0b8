(** * Decimal text of ints, as std::ostream writes them

    [operator<<(int)] with the default flags: base 10, '-' for negative numbers, no
    separators (the "C" locale; nothing in the code base imbues another one). *)
From Coq Require Export String Ascii.
From Verif Require Export Base.
Open Scope string_scope.
Open Scope list_scope.
Open Scope Z_scope.

(** the decimal digits of [z >= 0], most significant first *)
Fixpoint digits_from (fuel : nat) (z : Z) (acc : list Z) : list Z :=
  match fuel with
  | O => z :: acc
  | S fuel' => if z <? 10 then z :: acc else digits_from fuel' (z / 10) (z mod 10 :: acc)
  end.
Definition digits (z : Z) : list Z := digits_from (Z.to_nat (Z.log2 z)) z [].
Definition digit_char (d : Z) : ascii := ascii_of_N (Z.to_N (48 + d)).
Definition text (l : list ascii) : string := string_of_list_ascii l.
Definition dec (z : Z) : string :=
  text (if z <? 0 then "-"%char :: map digit_char (digits (- z)) else map digit_char (digits z)).

(** std::setfill(c) << std::setw(n) << s, right adjusted *)
Definition setw (n : nat) (c : ascii) (s : string) : string :=
  String.append (text (repeat c (n - String.length s))) s.
