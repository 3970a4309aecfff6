(** * Properties_Decay: the built-in decay functions (C111) *)
From Coq Require Import Reals List Lra Lia.
From Verif Require Import Num M_RFuns Spec_Carbon Spec_Decay P_RFuns P_Decay.
Import ListNotations.
Open Scope R_scope.

(** ** C111 *)
(** The response of the mixed layer to a pulse: all of it at first, ever less, 2.29 % for ever; also across the change of formula after two years. *)
Theorem C111_mixed_layer : forall idtm, 0 < idtm -> falls_to (fun it => rs_function it idtm) (22936 / 10 ^ 6).
Proof. exact rs_falls. Qed.
Print Assumptions C111_mixed_layer.
(** At two years the response drops by 0.000027. *)
Theorem C111_two_years : forall idtm, 0 < idtm ->
  exists l, left_limit (fun it => rs_function it idtm) (2 * idtm) l /\ 26 / 10 ^ 6 < l - rs_function (2 * idtm) idtm < 28 / 10 ^ 6.
Proof. exact rs_jump. Qed.
Print Assumptions C111_two_years.
(** The decay of biotic carbon: negative at the pulse only ([C32_builtin_at_zero]); all of it comes back but for less than 0.00001. *)
Theorem C111_biotic : forall idtm, 0 < idtm -> (forall it, idtm / 10 ^ 4 <= it -> 0 < rb_function it idtm) /\
  exists F L, F 0 = 0 /\ (forall it, derivable_pt_lim F it (rb_function it idtm)) /\ tends_to F (L * idtm) /\ 1 - 1 / 10 ^ 5 < L < 1.
Proof. intros idtm H. exact (conj (rb_pos idtm H) (rb_total idtm H)). Qed.
Print Assumptions C111_biotic.
(** The tables of a carbon cycle without given functions. *)
Theorem C111_tables : forall idtm years rs rb, (0 < idtm)%nat -> INR idtm <= 10000 -> precalc_r_functions idtm years None None = Some (rs, rb) ->
  decay_tables (idtm * years) (22936 / 10 ^ 6) (- (36 / 10000000)) rs rb.
Proof. exact decay_table. Qed.
Print Assumptions C111_tables.

(** The default 24 steps a year. With given coefficients there need be no drop and no negative value ([C32_rs_function2], [C32_rb_function2]). *)
Example C111_example : (exists rs rb, precalc_r_functions (A := R) 24 3 None None = Some (rs, rb) /\ List.length rs = 72%nat /\ nth_error rs 0 = Some 1 /\
    nth_error rb 0 = Some (- (36 / 10000000))) /\
  rs_function 48 24 < rs_function 47 24 < 1 /\ 0 < rb_function 1 24 /\ rb_function 0 24 < 0.
Proof.
  assert (D := rs_falls 24 ltac:(lra)). destruct D as [D1 D2 D3 _].
  split.
  - destruct (precalc_r_functions (A := R) 24 3 None None) as [[rs rb]|] eqn:E; [|discriminate E]. exists rs, rb. split; [reflexivity|].
    destruct (decay_table 24 3 rs rb ltac:(lia) ltac:(cbn; lra) E) as [[L1 L2] _ R P]. split; [exact L1|]. split.
    + destruct (nth_error rs 0) as [x|] eqn:Q; [|apply nth_error_None in Q; rewrite L1 in Q; cbn in Q; lia]. f_equal. apply (R 0%nat x Q). reflexivity.
    + destruct (nth_error rb 0) as [x|] eqn:Q; [|apply nth_error_None in Q; rewrite L2 in Q; cbn in Q; lia]. f_equal. apply (P 0%nat x Q). reflexivity.
  - split; [split; [apply D2; lra|rewrite <- D1; apply D2; lra]|]. split; [apply rb_pos; lra|]. rewrite P_RFuns.rb_zero by lra. lra.
Qed.
(** The value in /repo/tests/unit/test_rfuncs.py 9. *)
Example C111_tested_value : Rabs (rs_function 3 24 - 6884435390654896 / 10 ^ 16) <= 1 / 10 ^ 6.
Proof. exact at_step_three. Qed.
