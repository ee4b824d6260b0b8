(** * Outcomes, C++ ints and vectors

    Shared vocabulary of the model.  Nothing here is specific to one source file;
    it fixes how C++ behaviour that is not "returns a value" is represented. *)
From Coq Require Export ZArith List Bool Lia.
Export ListNotations.
Open Scope Z_scope.

(** Kinds of undefined behaviour the modelled code can run into. *)
Inductive ub :=
| OutOfBounds   (* std::vector::operator[] with an index outside the vector *)
| IntOverflow   (* signed int arithmetic leaves the range of int *)
| BadCast       (* (int) x for a double that is NaN, infinite or out of range *)
| Uninit        (* an indeterminate value is used *)
| NullDeref.    (* a null unique_ptr is dereferenced *)

(** What running a piece of C++ code can lead to. *)
Inductive outcome (A : Type) :=
| Ok (a : A)        (* normal completion *)
| Undef (u : ub)    (* undefined behaviour *)
| AssertFail        (* a failed assert(): abort, only in builds without NDEBUG *)
| Exit (code : Z)   (* std::exit(code) *)
| Throw             (* an exception that nothing in this code base catches *)
| Diverge.          (* the loop never ends (fuel exhausted; see each use) *)
Arguments Ok {A} a.
Arguments Undef {A} u.
Arguments AssertFail {A}.
Arguments Exit {A} code.
Arguments Throw {A}.
Arguments Diverge {A}.

Definition bind {A B} (m : outcome A) (k : A -> outcome B) : outcome B :=
  match m with
  | Ok a => k a
  | Undef u => Undef u
  | AssertFail => AssertFail
  | Exit c => Exit c
  | Throw => Throw
  | Diverge => Diverge
  end.

Notation "x <- e ;; k" := (bind e (fun x => k))
  (at level 61, e at next level, right associativity).
Notation "' p <- e ;; k" := (bind e (fun p => k))
  (at level 61, p pattern, e at next level, right associativity).

(** assert(b): [dbg] says whether the build keeps assertions (no NDEBUG). *)
Definition cassert (dbg b : bool) : outcome unit :=
  if dbg && negb b then AssertFail else Ok tt.

(** C++ int (32 bit, two's complement; overflow is undefined). *)
Definition int_min : Z := -2147483648.
Definition int_max : Z := 2147483647.
Definition in_int (z : Z) : bool := (int_min <=? z) && (z <=? int_max).
Definition cint (z : Z) : outcome Z := if in_int z then Ok z else Undef IntOverflow.

(** std::vector<A>::operator[]. A negative int index converts to a huge size_t. *)
Definition vget {A} (l : list A) (i : Z) : outcome A :=
  if i <? 0 then Undef OutOfBounds
  else match nth_error l (Z.to_nat i) with
       | Some a => Ok a
       | None => Undef OutOfBounds
       end.

Fixpoint upd {A} (l : list A) (i : nat) (a : A) : list A :=
  match l, i with
  | [], _ => []
  | _ :: t, O => a :: t
  | h :: t, S i' => h :: upd t i' a
  end.

Definition vset {A} (l : list A) (i : Z) (a : A) : outcome (list A) :=
  if i <? 0 then Undef OutOfBounds
  else if Nat.ltb (Z.to_nat i) (length l) then Ok (upd l (Z.to_nat i) a)
       else Undef OutOfBounds.

(** read-modify-write of one element *)
Definition vmod {A} (l : list A) (i : Z) (f : A -> A) : outcome (list A) :=
  a <- vget l i ;; vset l i (f a).

(** A loop over [xs] that threads a state. *)
Fixpoint foldM {S A} (f : A -> S -> outcome S) (xs : list A) (s : S) : outcome S :=
  match xs with
  | [] => Ok s
  | x :: xs' => s' <- f x s ;; foldM f xs' s'
  end.

(** for (auto& pi : v) { body }, where the body rewrites only the element it is
    at but may read all the others (as they are at that moment). *)
Definition each {A} (body : list A -> A -> outcome A) (v : list A) : outcome (list A) :=
  foldM (fun i w => match nth_error w i with
                    | Some a => a' <- body w a ;; Ok (upd w i a')
                    | None => Undef OutOfBounds
                    end) (seq 0 (length v)) v.
