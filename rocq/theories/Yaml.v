(** * A small part of YAML

    yaml-cpp is not part of /repo and is a parameter of the model ([parse] in [Loader]).
    This file reads the part of YAML that the settings files in /repo/input are written
    in, so that statements about these files can say what is needed of the parser: lines
    that are empty, comments, or

      key: scalar          # comment
      key: [scalar, ...]   # comment

    with keys of letters, digits, '-', '_' and plain scalars of these characters, '.', '/'
    and '+'.  Texts that are not of this form, duplicate keys and the spellings of null are
    refused, although YAML has a meaning for many of them. *)
From Verif Require Export Loader.
Open Scope list_scope.
Open Scope Z_scope.

Definition code (c : ascii) : Z := Z.of_N (N_of_ascii c).
Definition from_to (a b : Z) (c : ascii) : bool := (a <=? code c) && (code c <=? b).
Definition letter (c : ascii) : bool := from_to 65 90 c || from_to 97 122 c.
Definition alnum (c : ascii) : bool := letter c || from_to 48 57 c.
Definition one_of (s : string) (c : ascii) : bool := existsb (Ascii.eqb c) (lit s).
Definition key_char (c : ascii) : bool := alnum c || one_of "-_" c.
Definition word_char (c : ascii) : bool := alnum c || one_of "-_./+" c.
(** in comments: any byte but control characters *)
Definition comment_char (c : ascii) : bool := (32 <=? code c) && negb (code c =? 127).

Fixpoint span (f : ascii -> bool) (l : list ascii) : list ascii * list ascii :=
  match l with
  | [] => ([], [])
  | c :: r => if f c then let '(a, b) := span f r in (c :: a, b) else ([], l)
  end.
Definition skip_spaces (l : list ascii) : list ascii := snd (span (Ascii.eqb sp) l).
Definition comment_or_end (l : list ascii) : bool :=
  match l with [] => true | c :: r => Ascii.eqb c "#" && forallb comment_char r end.
(** what may follow a value *)
Definition line_end (l : list ascii) : bool :=
  match l with [] => true | c :: r => Ascii.eqb c sp && comment_or_end (skip_spaces r) end.

Definition nulls : list (list ascii) := map lit ["null"; "Null"; "NULL"]%string.
Definition plain (t : list ascii) : option node :=
  match t with
  | [] => None
  | c :: r => if (alnum c || negb (match r with [] => true | _ => false end)) && negb (existsb (text_eqb t) nulls) then Some (Scalar t) else None
  end.
(** the rest of a sequence after '[' or ',' *)
Fixpoint flow (fuel : nat) (l : list ascii) : option (list node * list ascii) :=
  match fuel with
  | O => None
  | S fuel' =>
      let '(t, r) := span word_char (skip_spaces l) in
      match plain t, skip_spaces r with
      | Some n, c :: r' =>
          if Ascii.eqb c "]" then Some ([n], r')
          else if Ascii.eqb c "," then match flow fuel' r' with Some (ns, r'') => Some (n :: ns, r'') | None => None end
          else None
      | _, _ => None
      end
  end.
Definition value_of (l : list ascii) : option node :=
  match l with
  | c :: w =>
      if Ascii.eqb c "[" then
        match flow (List.length w) w with Some (ns, r) => if line_end r then Some (Seq ns) else None | None => None end
      else let '(t, r) := span word_char l in if line_end r then plain t else None
  | [] => None
  end.
Definition entry (l : list ascii) : option (list ascii * node) :=
  let '(k, r) := span key_char l in
  match k, r with
  | c :: _, c1 :: c2 :: v =>
      if letter c && Ascii.eqb c1 ":" && Ascii.eqb c2 sp then
        match plain k, value_of (skip_spaces v) with Some _, Some n => Some (k, n) | _, _ => None end
      else None
  | _, _ => None
  end.
Fixpoint split_lines (cur : list ascii) (l : list ascii) : list (list ascii) :=
  match l with
  | [] => [rev cur]
  | c :: r => if Ascii.eqb c nl then rev cur :: split_lines [] r else split_lines (c :: cur) r
  end.
Fixpoint entries (ls : list (list ascii)) : option (list (list ascii * node)) :=
  match ls with
  | [] => Some []
  | l :: r =>
      if comment_or_end (skip_spaces l) then entries r
      else match entry l, entries r with Some e, Some es => Some (e :: es) | _, _ => None end
  end.
Definition flat_yaml (l : list ascii) : option node :=
  match entries (split_lines [] l) with
  | Some (e :: es) => if no_dup (map fst (e :: es)) then Some (Map (e :: es)) else None
  | _ => None
  end.

(** What the statements need of yaml-cpp: it reads such texts this way; the conversions of
    scalars understand decimal numerals ([get_double]: all of the text, correctly rounded),
    "true" and "false". *)
Definition reads_plainly (parse : list ascii -> option node) (as_int : list ascii -> option Z)
    (as_dbl : list ascii -> option f64) (as_bool : list ascii -> option bool) : Prop :=
  (forall b y, flat_yaml b = Some y -> parse b = Some y) /\
  (forall z, int_min <= z <= int_max -> as_int (showZ z) = Some z) /\
  (forall t x, get_double t = (x, true, []) -> as_dbl t = Some x) /\
  as_bool (lit "true") = Some true /\ as_bool (lit "false") = Some false.
