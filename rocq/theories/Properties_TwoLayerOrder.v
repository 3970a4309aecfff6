(** * Properties_TwoLayerOrder: more forcing, more warming in the two-layer model (C94) *)
From Coq Require Import QArith Reals List Lra.
From Verif Require Import Num M_TwoLayer Spec_TwoLayer Spec_TwoLayerRuns Spec_TwoLayerOrder P_TwoLayerOrder.
Import ListNotations.
Open Scope R_scope.

Theorem C94_order : forall p ins ins' s s', 0 <= (tl_foan p + tl_foas p) / 2 <= 1 -> 0 < tl_k p -> Forall (no_overshoot p) ins -> Forall2 less_forced ins ins' ->
  layers_le s s' -> Forall2 out_le (tl_run p s ins) (tl_run p s' ins').
Proof. exact c94_order. Qed.
Print Assumptions C94_order.
(** Forcing that starts nonnegative and never falls: no reported series ever falls. *)
Theorem C94_rising : forall p ins, 0 <= (tl_foan p + tl_foas p) / 2 <= 1 -> 0 < tl_k p -> Forall (no_overshoot p) ins -> chain less_forced ins ->
  match ins with i :: _ => length (i_vn i) = length (i_vs i) /\ 0 <= year_forcing i | [] => True end -> chain out_le (tl_run p (tl_init p) ins).
Proof. exact c94_rising. Qed.
Print Assumptions C94_rising.

Definition step_in {A} (zero f : A) : tl_in A := {| i_w := zero; i_nh := f; i_sh := f; i_vn := [zero]; i_vs := [zero] |}.
Example C94_default : let p := tl_default (A := R) in
  0 <= (tl_foan p + tl_foas p) / 2 <= 1 /\ 0 < tl_k p /\ Forall (no_overshoot p) [step_in 0 1; step_in 0 2; step_in 0 2] /\
  chain less_forced [step_in 0 1; step_in 0 2; step_in 0 2] /\ 0 <= year_forcing (step_in 0 1) /\ ~ less_forced (step_in 0 2) (step_in 0 1).
Proof.
  assert (NO : forall f, no_overshoot (tl_default (A := R)) (step_in 0 f)).
  { intros f. constructor; unfold year_feedback, capacity, tl_default, step_in; cbn [tl_lambda tl_delta tl_k tl_eff tl_mixed tl_deep i_w]; rnum; rdec; lra. }
  assert (LF : forall f f', f <= f' -> less_forced (step_in 0 f) (step_in 0 f')).
  { intros f f' L. constructor; try reflexivity. unfold year_forcing, step_in, rmean, rsum. cbn. lra. }
  cbv zeta. split; [|split; [|split; [|split; [|split]]]].
  - unfold tl_default; cbn [tl_foan tl_foas]; rnum; rdec; lra.
  - unfold tl_default; cbn [tl_k]; rnum; rdec; lra.
  - apply Forall_cons; [apply NO|]. apply Forall_cons; [apply NO|]. apply Forall_cons; [apply NO|]. apply Forall_nil.
  - cbn [chain]. split; [apply LF; lra|split; [apply LF; lra|exact I]].
  - unfold year_forcing, step_in, rmean, rsum. cbn. lra.
  - intros [_ _ H _]. unfold year_forcing, step_in, rmean, rsum in H. cbn in H. lra.
Qed.
(** Over a mixed layer of 5 m the same constant forcing does not give a rising temperature: the condition on the capacity is needed. *)
Example C94_overshoot :
  let p := {| tl_lambda := Qmake 374 300; tl_mixed := 5; tl_deep := 1200; tl_k := Qmake 1 2; tl_eff := 1; tl_foan := Qmake 61 100; tl_foas := Qmake 81 100; tl_delta := 0 |}%Q in
  match tl_run (N := QNum) p (tl_init (N := QNum) p) (map (step_in 0%Q) [4; 4]%Q) with
  | [o1; o2] => Qle_bool (o_fast o1) (o_fast o2)
  | _ => true
  end = false.
Proof. vm_compute. reflexivity. Qed.
