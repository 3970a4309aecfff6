(** * Spec_Decay: limits and tables of decay functions (C111) *)
From Coq Require Import Reals List.
From Verif Require Import Spec_Carbon.
Open Scope R_scope.

Definition left_limit (f : R -> R) (x l : R) : Prop := forall eps, 0 < eps -> exists d, 0 < d /\ forall t, x - d < t < x -> Rabs (f t - l) < eps.
(** falls strictly from 1 at 0, never reaching [c] *)
Record falls_to (f : R -> R) (c : R) : Prop := {
  ft_start : f 0 = 1; ft_falls : forall x y, 0 <= x < y -> f y < f x; ft_above : forall x, c < f x; ft_limit : tends_to f c }.
(** tables of the two functions: the first starts with 1 and falls, above [c]; the second is positive but for a first value [z] *)
Record decay_tables (n : nat) (c z : R) (rs rb : list R) : Prop := {
  dt_len : List.length rs = n /\ List.length rb = n;
  dt_falls : forall i j x y, (i < j)%nat -> nth_error rs i = Some x -> nth_error rs j = Some y -> y < x;
  dt_range : forall i x, nth_error rs i = Some x -> c < x <= 1 /\ (i = 0%nat -> x = 1);
  dt_positive : forall i x, nth_error rb i = Some x -> (i = 0%nat -> x = z) /\ ((0 < i)%nat -> 0 < x) }.
