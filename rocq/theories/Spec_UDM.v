(** * Spec_UDM: reference notions for the upwelling-diffusion model (no model function used) *)
From Coq Require Import Reals List.
Import ListNotations.
Open Scope R_scope.

(** [f 0 + ... + f (n-1)] *)
Fixpoint sumn (f : nat -> R) (n : nat) : R := match n with O => 0 | S m => sumn f m + f m end.

(** [x] solves the tridiagonal system whose row [i] couples unknowns [i-1], [i], [i+1] with
    coefficients [a[i-1]], [b[i]], [c[i+1]] (layout of scipy's [solve_banded] input [c, b, a]). *)
Definition below (a x : list R) (i : nat) : R :=
  match i with O => 0 | S j => nth j a 0 * nth j x 0 end.
Definition solves (a b c d x : list R) : Prop :=
  length x = length d /\
  forall i, (i < length d)%nat ->
    below a x i + nth i b 0 * nth i x 0 + nth (i + 1) c 0 * nth (i + 1) x 0 = nth i d 0.

(** Pivots of Gaussian elimination without row exchange: the numbers the elimination divides by. *)
Fixpoint pivot (a b c : list R) (i : nat) : R :=
  match i with
  | O => nth 0 b 0
  | S j => nth (S j) b 0 - nth j a 0 * (nth (S j) c 0 / pivot a b c j)
  end.

(** Heat per unit heat capacity in the top [z] metres of a column of layers of thickness [ds]
    with temperatures [ts], each layer being uniform. *)
Fixpoint column_heat (z : R) (ds ts : list R) {struct ds} : R :=
  match ds, ts with
  | d :: ds', t :: ts' => Rmin d (Rmax 0 z) * t + column_heat (z - d) ds' ts'
  | _, _ => 0
  end.
