(** * Properties_TwoLayer: C09-C15 for the two-layer thermal model *)
From Coq Require Import Reals List Lra.
From Verif Require Import Num M_TwoLayer Spec_TwoLayer Spec_TwoLayerRuns P_TwoLayer P_TwoLayer2.
Import ListNotations.
Open Scope R_scope.

(** ** C09: reported heat content of consecutive years of any run *)
Theorem C09_heat_bookkeeping : forall p s ins n o1 o2 i, tl_mixed p <> 0 -> tl_deep p <> 0 ->
  nth_error (tl_run p s ins) n = Some o1 -> nth_error (tl_run p s ins) (S n) = Some o2 ->
  nth_error ins (S n) = Some i -> length (i_vn i) = length (i_vs i) ->
  let F := (i_nh i + i_sh i) / 2 + (rmean (i_vn i) + rmean (i_vs i)) in
  let lam := tl_lambda p + i_w i * tl_delta p in
  o_OHCTOT o2 - o_OHCTOT o1 =
  (F - lam * o_fast o1 - (tl_eff p - 1) * tl_k p * (o_fast o1 - o_slow o1)) * joule22.
Proof. exact c09_run. Qed.
Print Assumptions C09_heat_bookkeeping.

(** The first (and any) year, from the state it starts in. *)
Theorem C09_heat_bookkeeping_year : forall p s i, tl_mixed p <> 0 -> tl_deep p <> 0 ->
  o_OHCTOT (snd (tl_year p s i))
  - (temp_fast s * capacity (tl_mixed p) + temp_slow s * capacity (tl_deep p)) * joule22
  = (tl_forc (i_nh i) (i_sh i) (i_vn i) (i_vs i) - (tl_lambda p + i_w i * tl_delta p) * temp_fast s
     - (tl_eff p - 1) * tl_k p * (temp_fast s - temp_slow s)) * joule22.
Proof. exact c09_year. Qed.
Print Assumptions C09_heat_bookkeeping_year.

Definition ex_in (f : R) : tl_in R := {| i_w := 0; i_nh := f; i_sh := f; i_vn := [0]; i_vs := [0] |}.
Example C09_example : exists o1 o2, let p := tl_default (A := R) in
  nth_error (tl_run p (tl_init p) [ex_in 1; ex_in 2]) 0 = Some o1 /\
  nth_error (tl_run p (tl_init p) [ex_in 1; ex_in 2]) 1 = Some o2 /\
  nth_error [ex_in 1; ex_in 2] 1 = Some (ex_in 2) /\ tl_mixed p <> 0 /\ tl_deep p <> 0.
Proof.
  eexists; eexists. cbn zeta. repeat split; try reflexivity; unfold tl_default; cbn [tl_mixed tl_deep]; rnum; lra.
Qed.

(** ** C10 *)
Theorem C10_imbalance_leads_uptake : forall p s ins n o1 o2 i1 i2, tl_mixed p <> 0 -> tl_deep p <> 0 ->
  nth_error (tl_run p s ins) n = Some o1 -> nth_error (tl_run p s ins) (S n) = Some o2 ->
  nth_error ins n = Some i1 -> nth_error ins (S n) = Some i2 ->
  length (i_vn i1) = length (i_vs i1) -> length (i_vn i2) = length (i_vs i2) ->
  i_w i1 * tl_delta p = i_w i2 * tl_delta p ->
  let F i := (i_nh i + i_sh i) / 2 + (rmean (i_vn i) + rmean (i_vs i)) in
  let lam := tl_lambda p + i_w i2 * tl_delta p in
  let uptake := (o_OHCTOT o2 - o_OHCTOT o1) / joule22 in
  uptake = o_RIB o1 + (F i2 - F i1) /\
  o_RIB o2 - uptake =
    - (lam + (tl_eff p - 1) * tl_k p) * (o_fast o2 - o_fast o1) + (tl_eff p - 1) * tl_k p * (o_slow o2 - o_slow o1).
Proof. exact c10. Qed.
Print Assumptions C10_imbalance_leads_uptake.

Example C10_example : let p := tl_default (A := R) in
  i_w (ex_in 1) * tl_delta p = i_w (ex_in 2) * tl_delta p /\ length (i_vn (ex_in 1)) = length (i_vs (ex_in 1)).
Proof. split; reflexivity. Qed.

(** ** C11 *)
Theorem C11_superposition : forall p a b ins ins', Forall2 compatible ins ins' ->
  tl_run p (tl_init p) (map2 (lin_in a b) ins ins') =
  map2 (lin_out a b) (tl_run p (tl_init p) ins) (tl_run p (tl_init p) ins').
Proof. exact c11_superposition. Qed.
Print Assumptions C11_superposition.

Theorem C11_zero_forcing : forall p ins l, Forall zero_in ins ->
  Forall (eq zero_out) (tl_run p {| temp_fast := 0; temp_slow := 0; lambda_eff := l |} ins).
Proof. exact c11_zero. Qed.
Print Assumptions C11_zero_forcing.

Example C11_example : Forall2 compatible [ex_in 1; ex_in 2] [ex_in (-3); ex_in 5] /\ zero_in (ex_in 0).
Proof. split; [repeat constructor; reflexivity | repeat split; repeat constructor]. Qed.

(** ** C12 *)
Theorem C12_converges_to_equilibrium : forall (p : tl_pam R) (F lam : R) (ins : nat -> tl_in R) (s : tl_state R),
  (forall n, length (i_vn (ins n)) = length (i_vs (ins n)) /\
     (i_nh (ins n) + i_sh (ins n)) / 2 + (rmean (i_vn (ins n)) + rmean (i_vs (ins n))) = F) ->
  (forall n, tl_lambda p + i_w (ins n) * tl_delta p = lam) ->
  0 < lam -> 0 < tl_k p -> 0 < tl_eff p ->
  lam + tl_k p * tl_eff p <= capacity (tl_mixed p) -> tl_k p <= capacity (tl_deep p) ->
  let st := states p ins s in
  (forall lo hi n, lo <= F / lam <= hi -> lo <= temp_fast s <= hi -> lo <= temp_slow s <= hi ->
     lo <= temp_fast (st n) <= hi /\ lo <= temp_slow (st n) <= hi) /\
  (exists r d C, 0 <= r < 1 /\ forall n,
     Rabs (temp_fast (st n) - F / lam) <= C * r ^ n /\ Rabs (temp_slow (st n) - F / lam) <= d * C * r ^ n) /\
  Un_cv (fun n => temp_fast (st n)) (F / lam) /\
  Un_cv (fun n => temp_slow (st n)) (F / lam) /\
  Un_cv (fun n => o_dtemp (snd (tl_year p (st n) (ins n)))) (F / lam).
Proof. exact c12_main. Qed.
Print Assumptions C12_converges_to_equilibrium.

Theorem C12_explicit_rate : forall (p : tl_pam R) (F lam : R) (ins : nat -> tl_in R) (s : tl_state R),
  (forall n, length (i_vn (ins n)) = length (i_vs (ins n)) /\
     (i_nh (ins n) + i_sh (ins n)) / 2 + (rmean (i_vn (ins n)) + rmean (i_vs (ins n))) = F) ->
  (forall n, tl_lambda p + i_w (ins n) * tl_delta p = lam) ->
  0 < lam -> 0 < tl_k p -> 0 < tl_eff p ->
  lam + tl_k p * tl_eff p <= capacity (tl_mixed p) -> tl_k p <= capacity (tl_deep p) ->
  let st := states p ins s in
  let d := lam / (2 * (tl_k p * tl_eff p)) in
  let r := Rmax (1 - lam / (2 * capacity (tl_mixed p))) (1 - tl_k p / capacity (tl_deep p) * (d / (1 + d))) in
  let C := Rmax (Rabs (temp_fast s - F / lam)) (Rabs (temp_slow s - F / lam) / (1 + d)) in
  0 <= r < 1 /\ forall n,
     Rabs (temp_fast (st n) - F / lam) <= r ^ n * C /\ Rabs (temp_slow (st n) - F / lam) <= (1 + d) * (r ^ n * C).
Proof. exact c12_ratio. Qed.
Print Assumptions C12_explicit_rate.

(** [states] is the sequence of states behind the reported years. *)
Theorem C12_states_are_reported : forall p ins s n m, (m < n)%nat ->
  nth_error (tl_run p s (map ins (seq 0 n))) m = Some (snd (tl_year p (states p ins s m) (ins m))).
Proof. exact states_run. Qed.
Print Assumptions C12_states_are_reported.

Example C12_example : let p := tl_default (A := R) in
  let lam := tl_lambda p in
  (forall n : nat, tl_lambda p + i_w (ex_in 4) * tl_delta p = lam) /\
  (i_nh (ex_in 4) + i_sh (ex_in 4)) / 2 + (rmean (i_vn (ex_in 4)) + rmean (i_vs (ex_in 4))) = 4 /\
  0 < lam /\ 0 < tl_k p /\ 0 < tl_eff p /\
  lam + tl_k p * tl_eff p <= capacity (tl_mixed p) /\ tl_k p <= capacity (tl_deep p).
Proof.
  unfold tl_default, ex_in, capacity, rmean, rsum; cbn [tl_lambda tl_k tl_eff tl_mixed tl_deep tl_delta i_w i_nh i_sh i_vn i_vs length fold_right INR].
  rnum. simpl Z.pow. repeat split; intros; lra.
Qed.

(** ** C13, two-layer half *)
Theorem C13_feedback_history_free_twolayer : forall (A : Type) (N : Num A) (p : tl_pam A) s ws w,
  tl_set_feedback p (fold_left (tl_set_feedback p) ws s) w =
    {| temp_fast := temp_fast s; temp_slow := temp_slow s;
       lambda_eff := nadd (tl_lambda p) (nmul w (tl_delta p)) |}.
Proof. exact @c13_tl. Qed.
Print Assumptions C13_feedback_history_free_twolayer.

Theorem C13_feedback_gated_twolayer : forall (p : tl_pam R) s w w', tl_delta p = 0 ->
  tl_set_feedback p s w = tl_set_feedback p s w' /\ lambda_eff (tl_set_feedback p s w) = tl_lambda p.
Proof. exact c13_tl_gate. Qed.
Print Assumptions C13_feedback_gated_twolayer.

Example C13_example : tl_delta (tl_default (A := R)) = 0.
Proof. reflexivity. Qed.

(** ** C14, two-layer half *)
Theorem C14_volcanic_counted_twice : forall p s (w nh sh d : R) vn vs, length vn = length vs -> tl_mixed p <> 0 ->
  let reported := (rmean vn + rmean vs) / 2 in
  let with_volc := snd (tl_year p s {| i_w := w; i_nh := nh; i_sh := sh; i_vn := vn; i_vs := vs |}) in
  let with_extra := snd (tl_year p s {| i_w := w; i_nh := nh + d; i_sh := sh + d; i_vn := []; i_vs := [] |}) in
  (d = 2 * reported -> with_volc = with_extra) /\ (o_fast with_volc = o_fast with_extra -> d = 2 * reported).
Proof. exact c14. Qed.
Print Assumptions C14_volcanic_counted_twice.

Example C14_example : length [-1; -2] = length [0; -3] /\ tl_mixed (tl_default (A := R)) <> 0.
Proof. split; [reflexivity|]. unfold tl_default; cbn [tl_mixed]; rnum; lra. Qed.

(** ** C15 *)
Theorem C15_ohc_consistent : forall p s i, 0 < tl_mixed p -> 0 < tl_deep p ->
  let o := snd (tl_year p s i) in
  o_OHC_MIXED o + o_OHC_DEEP o = o_OHCTOT o /\
  o_OHC700 o = heat_above 700 (tl_mixed p) (tl_deep p) (o_fast o) (o_slow o) /\
  o_OHCTOT o = heat_above (tl_mixed p + tl_deep p) (tl_mixed p) (tl_deep p) (o_fast o) (o_slow o) /\
  (0 <= o_fast o -> 0 <= o_slow o -> 0 <= o_OHC700 o <= o_OHCTOT o) /\
  (tl_mixed p + tl_deep p <= 700 -> o_OHC700 o = o_OHCTOT o).
Proof. exact c15. Qed.
Print Assumptions C15_ohc_consistent.

Example C15_example : 0 < tl_mixed (tl_default (A := R)) /\ 0 < tl_deep (tl_default (A := R)).
Proof. unfold tl_default; cbn [tl_mixed tl_deep]; rnum; lra. Qed.
