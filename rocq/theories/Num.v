(** * Num: the arithmetic the numeric code is written over

    The numeric python code is transcribed once over this class. Theorems quantified over
    every [Num A] use no algebraic law and hold for any interpretation of the operations
    (in particular IEEE doubles); theorems about instance [RNum] are about exact reals. *)
From Coq Require Import Reals ZArith QArith Qround List.
Import ListNotations.

Class Num (A : Type) := {
  nofZ : Z -> A;
  nadd : A -> A -> A;
  nsub : A -> A -> A;
  nmul : A -> A -> A;
  ndiv : A -> A -> A;
  nopp : A -> A;
  nabs : A -> A;
  nexp : A -> A;
  nln  : A -> A;
  nsqrt : A -> A;
  npow : A -> A -> A;          (* python [a ** b] with a float exponent *)
  nltb : A -> A -> bool;
  nleb : A -> A -> bool;
  neqb : A -> A -> bool;
  nfloor : A -> Z               (* floor, as used by float [//] and [int()] *)
}.

Declare Scope num_scope.
Delimit Scope num_scope with num.
Notation "x + y" := (nadd x y) : num_scope.
Notation "x - y" := (nsub x y) : num_scope.
Notation "x * y" := (nmul x y) : num_scope.
Notation "x / y" := (ndiv x y) : num_scope.
Notation "- x" := (nopp x) : num_scope.
Notation "# z" := (nofZ z%Z) (at level 5, z at level 0, format "# z") : num_scope.

Section Derived.
Context {A : Type} {N : Num A}.
Local Open Scope num_scope.

(** decimal literal [m / 10^k] *)
Definition dec (m : Z) (k : Z) : A := nofZ m / nofZ (10 ^ k).

(** [sum] / [np.sum]: left to right from 0 (numpy's pairwise order is not modelled). *)
Definition nsum (l : list A) : A := fold_left nadd l #0.
(** [np.mean] *)
Definition nmean (l : list A) : A := nsum l / nofZ (Z.of_nat (length l)).
(** elementwise binary operation on arrays of equal length *)
Fixpoint map2 {B C D} (f : B -> C -> D) (l : list B) (m : list C) : list D :=
  match l, m with
  | x :: l', y :: m' => f x y :: map2 f l' m'
  | _, _ => []
  end.
(** builtin [min(a, b)]: returns [a] unless [b < a] *)
Definition nmin (a b : A) : A := if nltb b a then b else a.
(** builtin [max(a, b)]: returns [a] unless [a < b] *)
Definition nmax (a b : A) : A := if nltb a b then b else a.
(** array of length [n] given by index *)
Definition tab {B} (n : nat) (f : nat -> B) : list B := map f (seq 0 n).
(** integer power with a literal exponent *)
Fixpoint npown (x : A) (n : nat) : A := match n with O => #1 | S O => x | S m => x * npown x m end.
End Derived.

(** ** Exact reals *)
#[global] Instance RNum : Num R := {
  nofZ := IZR;
  nadd := Rplus; nsub := Rminus; nmul := Rmult; ndiv := Rdiv; nopp := Ropp;
  nabs := Rabs; nexp := exp; nln := ln; nsqrt := sqrt; npow := Rpower;
  nltb := fun x y => if Rlt_dec x y then true else false;
  nleb := fun x y => if Rle_dec x y then true else false;
  neqb := fun x y => if Req_EM_T x y then true else false;
  nfloor := Int_part
}.

(** ** Exact rationals, used only to evaluate examples that need no transcendental function
    (those operations are given arbitrary values here); not an instance, always passed explicitly. *)
Definition QNum : Num Q := {|
  nofZ := inject_Z;
  nadd := fun x y => Qred (Qplus x y); nsub := fun x y => Qred (Qminus x y);
  nmul := fun x y => Qred (Qmult x y); ndiv := fun x y => Qred (Qdiv x y);
  nopp := Qopp; nabs := Qabs.Qabs;
  nexp := fun x => x; nln := fun x => x; nsqrt := fun x => x; npow := fun x _ => x;
  nltb := fun x y => match Qcompare x y with Lt => true | _ => false end;
  nleb := Qle_bool; neqb := Qeq_bool; nfloor := Qround.Qfloor |}.

(** Turn class operations at [R] into the library's ones. *)
Ltac rnum :=
  unfold nmin, nmax, nmean, dec in *;
  cbn [nofZ nadd nsub nmul ndiv nopp nabs nexp nln nsqrt npow nltb nleb neqb nfloor RNum] in *.
(** Evaluate the powers of ten in decimal literals. *)
Ltac rdec :=
  repeat match goal with
  | |- context [Z.pow 10 ?k] => let v := eval vm_compute in (Z.pow 10 k) in change (Z.pow 10 k) with v
  | H : context [Z.pow 10 ?k] |- _ => let v := eval vm_compute in (Z.pow 10 k) in change (Z.pow 10 k) with v in H
  end.
