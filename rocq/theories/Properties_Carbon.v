(** * Properties_Carbon: theorems C25-C32, C34-C36, C76 *)
From Coq Require Import Reals ZArith QArith List Lra Lia Bool.
From Verif Require Import Num M_RFuns M_Carbon M_CarbonBack M_CarbonBox Spec_UDM Spec_Carbon
  P_Carbon P_CarbonBack P_Carbon2 P_Carbon3 P_Carbon4 P_Carbon5 P_Carbon6 P_RFuns P_CarbonMisc P_CarbonConv.
Import ListNotations.
Open Scope R_scope.

(** The default parameters with a window of two years of two steps over the reals, and of one step over the
    rationals (where [nexp] and [nln] are placeholders). *)
Definition ccr : cc_pam R :=
  {| beta_f := 287 / 1000; mixed_carbon := 75; ml_w_sigmoid := 3; ml_fracmax := 1 / 2; ml_t_half := 1 / 2; t_half := 1 / 2;
     w_sigmoid := 7; t_threshold := 4; w_threshold := 7; solubility_sens := 2 / 100; solubility_limit := 1 / 2; ml_depth_min := 10;
     preind := 278; idtm := 2; years_tot := 2; r_s := [1; 1 / 2; 1 / 4; 1 / 8]; r_b := [0; 1 / 10; 1 / 20; 1 / 30] |}.
Definition ccq : cc_pam Q :=
  {| beta_f := 287 / 1000; mixed_carbon := 75; ml_w_sigmoid := 3; ml_fracmax := 1 / 2; ml_t_half := 1 / 2; t_half := 1 / 2;
     w_sigmoid := 7; t_threshold := 4; w_threshold := 7; solubility_sens := 2 / 100; solubility_limit := 1 / 2; ml_depth_min := 10;
     preind := 278; idtm := 1; years_tot := 2; r_s := [1; 1 / 2]; r_b := [0; 1 / 10] |}%Q.

(** The same without a biosphere (the placeholder logarithm of 1 is not 0). *)
Definition ccq0 : cc_pam Q :=
  {| beta_f := 0; mixed_carbon := 75; ml_w_sigmoid := 3; ml_fracmax := 1 / 2; ml_t_half := 1 / 2; t_half := 1 / 2;
     w_sigmoid := 7; t_threshold := 4; w_threshold := 7; solubility_sens := 2 / 100; solubility_limit := 1 / 2; ml_depth_min := 10;
     preind := 278; idtm := 1; years_tot := 2; r_s := [1; 1 / 2]; r_b := [0; 1 / 10] |}%Q.

(** ** C25 *)
Theorem C25_preindustrial_steady : forall p ins h yr, preind p <> 0 -> Forall (fun i => fst i = 0) ins ->
  h = cc_init p \/ (exists h0, h = cc_reset p h0) ->
  Forall (fun c => c = preind p) (snd (cc_run p h yr ins)).
Proof.
  intros p ins h yr Hp Hi [E|[h0 E]]; subst h; apply run_zero; auto; [apply init_zero|apply reset_zero].
Qed.
Print Assumptions C25_preindustrial_steady.

(** Two warming years without emissions; with emissions the concentration moves. *)
Example C25_example : Forall (fun i : R * R => fst i = 0) [(0, 1); (0, 3)] /\ preind ccr <> 0 /\
  match snd (cc_run (N := QNum) ccq0 (cc_init (N := QNum) ccq0) 0 [(0, 1); (0, 3)]%Q),
        snd (cc_run (N := QNum) ccq0 (cc_init (N := QNum) ccq0) 0 [(1, 0)]%Q) with
  | [a; b], [c] => Qeq_bool a 278 && Qeq_bool b 278 && negb (Qle_bool c 278)
  | _, _ => false
  end = true.
Proof. split; [repeat constructor|]. split; [cbn; lra|vm_compute; reflexivity]. Qed.

(** ** C26 *)
Theorem C26_closure : forall p ins, idtm p <> 0%nat -> ins <> [] -> (length ins <= years_tot p)%nat ->
  length (r_s p) = (idtm p * years_tot p)%nat -> length (r_b p) = (idtm p * years_tot p)%nat ->
  let em y := fst (nth y ins (0, 0)) in let t y := snd (nth y ins (0, 0)) in
  let h := fst (cc_run p (cc_init p) 0 ins) in
  let Y := length ins in let last := (Y * idtm p - 1)%nat in
  pgc * (List.last (snd (cc_run p (cc_init p) 0 ins)) 0 - preind p)
  + total (firstn Y (biosphere_flux p (ffer_series p (h_d h)))) + total (firstn Y (ocean_flux p h)) - total (map fst ins)
  = pgc * (1 / INR (idtm p) / 2 * (surplus p em (h_d h) 0 - surplus p em (h_d h) last + gas_rate * nth last (h_s h) 0)
           + (h_y h - h_y (cc_steps p (cc_init p) em t last)) / 2).
Proof. exact c26. Qed.
Print Assumptions C26_closure.

(** The same after every sub-yearly step. *)
Theorem C26_closure_step : forall p em t m, idtm p <> 0%nat -> (m < idtm p * years_tot p)%nat ->
  (idtm p * years_tot p <= length (r_s p))%nat -> (idtm p * years_tot p <= length (r_b p))%nat ->
  let h := cc_steps p (cc_init p) em t (S m) in
  let dt := 1 / INR (idtm p) in
  pgc * (h_x h - preind p) + dt * sumn (uptake dt (r_b p) (h_d h)) (S m)
  + pgc * gas_rate * dt * sumn (fun j => nth j (h_s h) 0) (S m) - dt * sumn (fun j => em (Nat.div j (idtm p))) (S m)
  = pgc * (dt / 2 * (surplus p em (h_d h) 0 - surplus p em (h_d h) m + gas_rate * nth m (h_s h) 0)
           + (h_y h - h_y (cc_steps p (cc_init p) em t m)) / 2).
Proof. exact closure_step. Qed.
Print Assumptions C26_closure_step.

(** Hypotheses hold for the two-year window, and the defect is not zero there. *)
Example C26_example : idtm ccr <> 0%nat /\ length (r_s ccr) = (idtm ccr * years_tot ccr)%nat /\
  length (r_b ccr) = (idtm ccr * years_tot ccr)%nat /\
  (let run := cc_run (N := QNum) ccq (cc_init (N := QNum) ccq) 0 [(10, 0)]%Q in
   match snd run, biosphere_flux (N := QNum) ccq (ffer_series (N := QNum) ccq (h_d (fst run))), ocean_flux (N := QNum) ccq (fst run) with
   | [c], b :: _, o :: _ => Qeq_bool (2123 / 1000 * (c - 278) + b + o) 10
   | _, _, _ => true
   end = false).
Proof. split; [discriminate|]. split; [reflexivity|]. split; [reflexivity|]. vm_compute. reflexivity. Qed.

(** ** C27: for every interpretation of the arithmetic *)
Theorem C27_replay_exact : forall (A : Type) (N : Num A) (p : cc_pam A) h yr l em t,
  co2em2conc p (set_hold (tries p h h yr l) (get_hold h)) yr em t = co2em2conc p h yr em t.
Proof. exact @replay_exact. Qed.
Print Assumptions C27_replay_exact.

(** Another attempt at the second year; without putting the hold values back the result differs. *)
Example C27_example :
  let h := fst (co2em2conc (N := QNum) ccq (cc_init (N := QNum) ccq) 0 10 0)%Q in
  let h3 := tries (N := QNum) ccq h h 1 [(5, 1)]%Q in
  let conc s := snd (co2em2conc (N := QNum) ccq s 1 7 0)%Q in
  Qeq_bool (conc (set_hold h3 (get_hold h))) (conc h) = true /\ Qeq_bool (conc h3) (conc h) = false.
Proof. vm_compute. split; reflexivity. Qed.

(** ** C28 *)
Theorem C28_bisection : forall (S : Type) (call : S -> R -> S * R) (restore : S -> S -> S) (s0 : S) target rtol MX MN n,
  (forall g g', call (restore s0 (fst (call s0 g'))) g = call s0 g) -> 0 <= rtol -> MN <= MX ->
  (forall x y, MN <= x -> x <= y -> y <= MX -> snd (call s0 x) <= snd (call s0 y)) ->
  let '(g, s, done) := guess_emissions S call restore s0 target (MX, MN) rtol n in
  (done <= n)%nat /\ MN <= g <= MX /\ s = fst (call s0 g) /\
  (Rabs (target - snd (call s0 g)) / target <= rtol \/ done = n) /\
  (forall e, MN <= e <= MX -> snd (call s0 e) = target -> Rabs (g - e) <= (MX - MN) / 2 ^ (done + 1)).
Proof. exact bisection. Qed.
Print Assumptions C28_bisection.

(** The default carbon cycle meets the first hypothesis (C27). *)
Theorem C28_bisection_default : forall (p : cc_pam R) h yr t target rtol MX MN n, 0 <= rtol -> MN <= MX ->
  (forall x y, MN <= x -> x <= y -> y <= MX -> snd (co2em2conc p h yr x t) <= snd (co2em2conc p h yr y t)) ->
  let '(g, s, done) := guess_emissions (cc_state R) (fun s em => co2em2conc p s yr em t)
                         (fun s0 s => set_hold s (get_hold s0)) h target (MX, MN) rtol n in
  (done <= n)%nat /\ MN <= g <= MX /\ s = fst (co2em2conc p h yr g t) /\
  (Rabs (target - snd (co2em2conc p h yr g t)) / target <= rtol \/ done = n) /\
  (forall e, MN <= e <= MX -> snd (co2em2conc p h yr e t) = target -> Rabs (g - e) <= (MX - MN) / 2 ^ (done + 1)).
Proof. exact default_guess_acc. Qed.
Print Assumptions C28_bisection_default.

(** A whole back-calculation: running the emissions forward from the same object gives the same object
    and reproduces every concentration within the tolerance unless 100 iterations were used. For
    every interpretation of the arithmetic; no monotonicity needed. *)
Theorem C28_back_calculation_forward : forall (A : Type) (N : Num A) (p : cc_pam A) series h,
  let '(h', res) := back_calculate p h series in
  let '(h2, cs) := cc_run p h 0 (combine (map fst res) (map snd series)) in
  h2 = h' /\ length res = length series /\
  Forall2 (fun td c => nltb RTOL (ndiv (nabs (nsub (fst td) c)) (fst td)) = false \/ snd td = MAXIT)
    (combine (map fst series) (map snd res)) cs.
Proof. intros A N p series h. exact (back_forward p series h 0 _ _). Qed.
Print Assumptions C28_back_calculation_forward.

(** Response 2 e + 3 with target 8 in [0, 10]: one halving; and a search cut at 3 iterations. *)
Example C28_example :
  guess_emissions (N := QNum) unit (fun _ e => (tt, (2 * e + 3)%Q)) (fun _ _ => tt) tt 8%Q (10, 0)%Q (1 / 1000)%Q 100 = (5 / 2, tt, 1%nat)%Q /\
  snd (guess_emissions (N := QNum) unit (fun _ e => (tt, (2 * e + 3)%Q)) (fun _ _ => tt) tt 9%Q (10, 0)%Q (1 / 1000)%Q 3) = 3%nat.
Proof. split; vm_compute; reflexivity. Qed.

(** ** C29 *)
Theorem C29_bracket : forall now zero w, let '(mx, mn) := initial_max_min_guess now zero w in
  1 <= mx - mn /\ mn <= (now - zero) * pgc <= mx.
Proof. exact bracket. Qed.
Print Assumptions C29_bracket.

Example C29_example :
  let '(mx, mn) := initial_max_min_guess (N := QNum) 280%Q 278%Q (-1)%Q in
  Qeq_bool mx (8246 / 1000)%Q && Qeq_bool mn (-3754 / 1000)%Q = true.
Proof. vm_compute. reflexivity. Qed.

(** ** C30 *)
Theorem C30_feedbacks_normalised : forall p, cc_admissible p ->
  fnpp_from_temp p 0 = 60 /\ (forall t, 0 < fnpp_from_temp p t) /\
  mixed_layer_temp_feedback p 0 = Rmax (mixed_carbon p) (ml_depth_min p) /\
  nonincreasing (mixed_layer_temp_feedback p) /\ (forall t, ml_depth_min p <= mixed_layer_temp_feedback p t) /\
  solubility_temp_feedback p 0 = 1 /\ nonincreasing (solubility_temp_feedback p) /\
  (forall t, 0 < solubility_temp_feedback p t <= 1 + solubility_limit p).
Proof. exact feedbacks. Qed.
Print Assumptions C30_feedbacks_normalised.

(** Finding: solubility falls with warming and multiplies the pressure, so the modelled ocean pressure for a given
    positive carbon content falls with warming (warming makes the ocean take up more). *)
Theorem C30_warming_lowers_pressure : forall p t t' z, cc_admissible p -> t <= t' -> 0 <= z ->
  solubility_temp_feedback p t' * pco2_ocean z <= solubility_temp_feedback p t * pco2_ocean z.
Proof. exact warming_pressure. Qed.
Print Assumptions C30_warming_lowers_pressure.

(** Production has one peak and dies out on both sides. *)
Theorem C30_production_curve : forall p, cc_admissible p ->
  (forall x y z, x <= y <= z -> Rmin (fnpp_from_temp p x) (fnpp_from_temp p z) <= fnpp_from_temp p y) /\
  (forall e, 0 < e -> exists t0, forall t, t0 <= t -> fnpp_from_temp p t < e) /\
  (forall e, 0 < e -> exists t0, forall t, t <= t0 -> fnpp_from_temp p t < e).
Proof. intros p A. split; [exact (npp_one_peak p)|]. split; [exact (npp_hot p A)|exact (npp_cold p A)]. Qed.
Print Assumptions C30_production_curve.

Example C30_example : cc_admissible ccr /\ solubility_temp_feedback ccr 1 < 1 /\ mixed_layer_temp_feedback ccr 0 = 75.
Proof.
  assert (A : cc_admissible ccr) by (constructor; cbn; lra). split; [exact A|]. split.
  - rewrite sol_eq. cbn [solubility_sens solubility_limit ccr]. eapply Rle_lt_trans; [apply Rmin_l|]. apply Rlt_le_trans with (exp 0); [apply exp_increasing; lra|rewrite exp_0; lra].
  - rewrite ml_zero by (cbn; lra). cbn [mixed_carbon ml_depth_min ccr]. apply Rmax_left. lra.
Qed.

(** ** C31 *)
Theorem C31_pressure_curve_C1 :
  (forall z, derivable_pt_lim pco2_ocean z (pco2_slope z)) /\ continuity pco2_slope /\
  (forall z, 0 < pco2_slope z) /\ strictly_increasing pco2_ocean /\ pco2_ocean 0 = 0.
Proof. exact pressure_curve. Qed.
Print Assumptions C31_pressure_curve_C1.

Example C31_example : pco2_ocean 100 = 1799888 / 10000 /\ pco2_slope 587 = pco2_slope (2935 / 10) / 2.
Proof. exact pressure_example. Qed.

(** ** C32 *)
Theorem C32_rs_function2 : forall c0 cs ts idtm, 0 < idtm -> Forall (fun c => 0 <= c) (c0 :: cs) -> 0 < total (c0 :: cs) ->
  Forall (fun t => 0 < t) ts -> length cs = length ts ->
  let f it := rs_function2 it (c0 :: cs) ts idtm in
  f 0 = 1 /\ nonincreasing f /\ (forall it, c0 / total (c0 :: cs) <= f it) /\ tends_to f (c0 / total (c0 :: cs)) /\
  (forall k it, k <> 0 -> rs_function2 it (map (Rmult k) (c0 :: cs)) ts idtm = f it).
Proof. exact rs_all. Qed.
Print Assumptions C32_rs_function2.

Theorem C32_rb_function2 : forall cs ts idtm, 0 < idtm -> Forall (fun c => 0 <= c) cs -> 0 < total cs ->
  Forall (fun t => 0 < t) ts -> length cs = length ts ->
  let f it := rb_function2 it cs ts idtm in
  f 0 = 0 /\ (forall it, 0 <= it -> 0 <= f it) /\
  (exists F, F 0 = 0 /\ (forall it, derivable_pt_lim F it (f it)) /\ tends_to F idtm) /\
  (forall k it, k <> 0 -> rb_function2 it (map (Rmult k) cs) ts idtm = f it).
Proof. exact rb_all. Qed.
Print Assumptions C32_rb_function2.

Theorem C32_builtin_at_zero : forall idtm, idtm <> 0 ->
  rs_function 0 idtm = 1 /\ rb_function 0 idtm = - (36 / 10000000).
Proof. intros idtm H. split; [exact (rs_zero idtm H)|exact (rb_zero idtm H)]. Qed.
Print Assumptions C32_builtin_at_zero.

(** What the array check accepts; timescales of zero, for which the functions divide by zero, pass. *)
Theorem C32_array_check : forall cs ts (rs : bool), check_array_consistency cs ts rs = true <->
  length cs = (length ts + (if rs then 1 else 0))%nat /\ Forall (fun t => 0 <= t) ts /\ Forall (fun c => 0 <= c) cs.
Proof. exact check_iff. Qed.
Print Assumptions C32_array_check.
Theorem C32_zero_timescale_accepted : check_array_consistency (A := R) [1] [0] false = true.
Proof. apply check_iff. repeat split; repeat constructor; lra. Qed.
Print Assumptions C32_zero_timescale_accepted.

Example C32_example : Forall (fun c => 0 <= c) [1 / 2; 1 / 4; 1 / 4] /\ 0 < total [1 / 2; 1 / 4; 1 / 4] /\
  Forall (fun t => 0 < t) [5 / 2; 10; 60] /\ rb_function2 24 [1] [1] 24 = exp (-1).
Proof. exact rb_example. Qed.

(** ** C34 *)
Theorem C34_ocean_memory : forall p s ml it, (it < length s)%nat -> (it <= length (r_s p))%nat ->
  z_co2 p s ml it = 1722 * 10 ^ 14 / (362 * 10 ^ 12 * (906 / 100)) * (1 / INR (idtm p)) / ml *
    sumn (fun j => ocean_weight (r_s p) it j * nth j s 0) (length s).
Proof. exact z_number. Qed.
Print Assumptions C34_ocean_memory.

(** A unit flux at step 1 counts 1/2 at once, nothing one step later, then r(1), r(2), ... *)
Example C34_example : map (fun it => ocean_weight (r_s ccr) it 1) [0; 1; 2; 3; 4; 5]%nat = [0; 1 / 2; 0; 1 / 2; 1 / 4; 1 / 8].
Proof. reflexivity. Qed.
(** Fluxes 1, 3 and 5: half of the last one, nothing of the second and r(1) of the first; a mixed layer of 75 m *)
Example C34_evaluated : Qred (z_co2 (N := QNum) ccq [1; 3; 5]%Q 75%Q 2) = Qred (1722 * 100 / (362 * (906 / 100)) / 75 * (1 * (1 / 2) + 5 / 2))%Q.
Proof. vm_compute. reflexivity. Qed.

(** ** C35 *)
Theorem C35_box_conserves_carbon : forall p s ins, box_total (fst (box_run p s ins)) = box_total s + total (map fst ins).
Proof. intros p s ins. exact (box_run_total p ins s). Qed.
Print Assumptions C35_box_conserves_carbon.
Theorem C35_box_steady : forall p n, b_veg_frac p = 1 / 10 -> b_soil_rate p = 1 / 50 ->
  box_run p box_init (repeat (0, 0) n) = (box_init, repeat 278 n).
Proof. exact box_steady. Qed.
Print Assumptions C35_box_steady.
Theorem C35_box_unused_parameters : forall p q s ins, box_same p q -> box_run p s ins = box_run q s ins.
Proof. exact box_indep. Qed.
Print Assumptions C35_box_unused_parameters.

Definition boxq : box_pam Q :=
  {| b_beta_f := 287 / 1000; b_land_sens := 1 / 10; b_soil_rate := 1 / 50; b_mld := 25; b_exchange := 1 / 100; b_veg_frac := 1 / 10;
     b_sol_base := 1 / 50; b_sol_coeff := - 1 / 100; b_idtm := 24; b_preind := 285 |}%Q.
Example C35_example :
  let s := fst (box_run (N := QNum) boxq (box_init (N := QNum)) [(10, 0); (5, 1)]%Q) in
  Qeq_bool (2123 / 1000 * atm s + veg s + soil s + omix s + odeep s) (2123 / 1000 * 278 + 3600 + 15) = true.
Proof. vm_compute. reflexivity. Qed.

(** ** C36 *)
Theorem C36_airborne_fraction : forall em conc pre af, airborne_fraction em conc pre = Some af -> length conc = length em ->
  length af = length em /\ forall t, (t < length em)%nat -> nth t af 0 * total (firstn (S t) em) = pgc * (nth t conc 0 - pre).
Proof. exact airborne_some. Qed.
Print Assumptions C36_airborne_fraction.
Theorem C36_all_or_nothing : forall em conc pre,
  airborne_fraction em conc pre = None <-> exists t, (t < length em)%nat /\ total (firstn (S t) em) = 0.
Proof. exact airborne_none. Qed.
Print Assumptions C36_all_or_nothing.

(** Emissions 1, -1, 5: one zero cumulative sum and all three years are undefined. *)
Example C36_example : airborne_fraction (N := QNum) [1; -1; 5]%Q [279; 278; 280]%Q 278%Q = None /\
  airborne_fraction (N := QNum) [1; 1]%Q [279; 278]%Q 278%Q = Some [2123 / 1000; 0]%Q.
Proof. split; vm_compute; reflexivity. Qed.

(** ** C76 *)
Theorem C76_leftover_pressure : forall p fnpp h, nth 0 (h_d h) 0 = 0 ->
  h_x (cc_step p fnpp 0 h 0) = preind p + h_y h / 2.
Proof. exact leftover. Qed.
Print Assumptions C76_leftover_pressure.

(** One year of emissions leaves a pressure behind; the first year run again on the same object
    without emissions does not give 278. (The placeholder exponential of x is x, hence the temperature.) *)
Example C76_example :
  let h := fst (co2em2conc (N := QNum) ccq0 (cc_init (N := QNum) ccq0) 0 10 (-50))%Q in
  Qle_bool (h_y h) 0 = false /\ Qeq_bool (snd (co2em2conc (N := QNum) ccq0 h 0 0 0)%Q) 278 = false /\
  Qeq_bool (snd (co2em2conc (N := QNum) ccq0 (cc_reset (N := QNum) ccq0 h) 0 0 0)%Q) 278 = true.
Proof. vm_compute. repeat split; reflexivity. Qed.
