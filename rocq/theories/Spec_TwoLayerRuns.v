(** * Spec_TwoLayerRuns: vocabulary for statements about runs of the two-layer model *)
From Coq Require Import Reals List.
From Verif Require Import Num M_TwoLayer.
Import ListNotations.
Open Scope R_scope.

(** linear combination *)
Definition lin (a b x y : R) : R := a * x + b * y.

(** Pointwise combination of two input years with the same feedback weight. *)
Definition lin_in (a b : R) (i j : tl_in R) : tl_in R :=
  {| i_w := i_w i; i_nh := lin a b (i_nh i) (i_nh j); i_sh := lin a b (i_sh i) (i_sh j);
     i_vn := map2 (lin a b) (i_vn i) (i_vn j); i_vs := map2 (lin a b) (i_vs i) (i_vs j) |}.
Definition lin_out (a b : R) (o u : tl_out R) : tl_out R :=
  {| o_dtemp := lin a b (o_dtemp o) (o_dtemp u); o_fast := lin a b (o_fast o) (o_fast u);
     o_slow := lin a b (o_slow o) (o_slow u); o_RIB := lin a b (o_RIB o) (o_RIB u);
     o_OHCTOT := lin a b (o_OHCTOT o) (o_OHCTOT u); o_OHC_MIXED := lin a b (o_OHC_MIXED o) (o_OHC_MIXED u);
     o_OHC_DEEP := lin a b (o_OHC_DEEP o) (o_OHC_DEEP u); o_sea := lin a b (o_sea o) (o_sea u);
     o_OHC700 := lin a b (o_OHC700 o) (o_OHC700 u) |}.
Definition compatible (i j : tl_in R) : Prop :=
  i_w i = i_w j /\ length (i_vn i) = length (i_vs i) /\ length (i_vn j) = length (i_vn i) /\
  length (i_vs j) = length (i_vn i).

(** A year without any forcing, and an all-zero report. *)
Definition zero_in (i : tl_in R) : Prop :=
  i_nh i = 0 /\ i_sh i = 0 /\ Forall (eq 0) (i_vn i) /\ Forall (eq 0) (i_vs i) /\ length (i_vn i) = length (i_vs i).
Definition zero_out : tl_out R :=
  {| o_dtemp := 0; o_fast := 0; o_slow := 0; o_RIB := 0; o_OHCTOT := 0; o_OHC_MIXED := 0; o_OHC_DEEP := 0;
     o_sea := 0; o_OHC700 := 0 |}.

(** State at the start of year [n] (0 = first year) when year [m] has input [ins m]. *)
Fixpoint states (p : tl_pam R) (ins : nat -> tl_in R) (s : tl_state R) (n : nat) : tl_state R :=
  match n with O => s | S m => fst (tl_year p (states p ins s m) (ins m)) end.
