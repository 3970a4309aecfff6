(** * Spec_Whole: instances after runs, and equal results, for the whole model (C98) *)
From Verif Require Import PyBase Num M_Driver M_Parallel M_Whole.

Section Whole.
Context {A : Type} {N : Num A}.
Variables (nan : A) (number : pyfloat -> A).
(** [w] is [w0] after completed runs with some configurations, in their order. *)
Inductive after_runs (w0 : whole A) : list config -> whole A -> Prop :=
| fresh : after_runs w0 [] w0
| run_more : forall cs w c w', after_runs w0 cs w ->
    whole_run nan number w (cf_udm c) (cf_emiconc c) (cf_carbon c) = Ok w' -> after_runs w0 (cs ++ [c]) w'.
(** Two result dictionaries hold the same entries. *)
Definition same_results (r r' : results A) : Prop := forall k, dget r k = dget r' k.
End Whole.
