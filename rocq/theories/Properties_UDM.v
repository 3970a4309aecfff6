(** * Properties_UDM: theorems C13, C14 (second halves), C16-C24, C89 and C90 *)
From Coq Require Import Reals ZArith QArith List Lra Lia Bool.
From Verif Require Import Num M_TwoLayer M_UDM Spec_TwoLayer Spec_TwoLayerRuns Spec_UDM Spec_UDMRuns P_UDM P_UDM4 P_UDM5 P_UDM6 P_UDM7 P_UDM8 P_UDM9 P_UDM10 P_UDM11.
Import ListNotations.
Open Scope R_scope.

(** A small rational configuration for evaluated examples: 2 layers, 2 sub-steps. *)
Definition exq : ud_pam Q :=
  {| rlamdo := 15; akapa := 66/100; cpi := 21/100; W := 22/10; beto := 69/10; threstemp := 0; lambda := 1/2;
     mixed := 50; foan := 1/2; foas := 3/4; ebbeta := 0; lm := 2; ldtime := 2; efficacy := 1; delta_aero := 0 |}%Q.
Definition exq_year (f : Q) : tl_in Q := {| i_w := 0; i_nh := f; i_sh := 2 * f; i_vn := [1/10; 0]; i_vs := [0; 0] |}%Q.
Definition exq_run (fs : list Q) : list (ud_out Q) := ud_run (N := QNum) exq (ud_init (N := QNum) exq) (map exq_year fs).

(** ** C13, upwelling-diffusion half: for every interpretation of the arithmetic *)
Theorem C13_feedback_history_free_udm : forall (A : Type) (N : Num A) (p : ud_pam A) ws s w,
  ud_set_feedback p (fold_left (ud_set_feedback p) ws s) w = ud_set_feedback p s w /\
  (neqb (delta_aero p) (nofZ 0) = false ->
     u_rlamda (ud_set_feedback p s w) = nadd (ndiv (nofZ 1) (lambda p)) (nmul w (delta_aero p))) /\
  (neqb (delta_aero p) (nofZ 0) = true -> ud_set_feedback p s w = s).
Proof. exact @fb_all. Qed.
Print Assumptions C13_feedback_history_free_udm.

(** A year of the model does not change the feedback. *)
Theorem C13_year_keeps_feedback_udm : forall (A : Type) (N : Num A) (p : ud_pam A) s f g v w,
  u_rlamda (fst (ud_energy_budget p s f g v w)) = u_rlamda s.
Proof. exact @fb_kept. Qed.
Print Assumptions C13_year_keeps_feedback_udm.

Example C13_udm_example :
  let p := {| rlamdo := 15; akapa := 1; cpi := 0; W := 0; beto := 0; threstemp := 0; lambda := 1/2; mixed := 50; foan := 1/2;
              foas := 3/4; ebbeta := 0; lm := 3; ldtime := 1; efficacy := 1; delta_aero := 1/4 |}%Q in
  Qeq_bool (u_rlamda (ud_set_feedback (N := QNum) p (fold_left (ud_set_feedback (N := QNum) p) [3; 5]%Q (ud_init (N := QNum) p)) 1%Q)) (9/4) = true.
Proof. vm_compute. reflexivity. Qed.

(** ** C14, upwelling-diffusion half: a constant volcanic forcing acts exactly like the same
    amount added once to this and last year's hemispheric forcing. *)
Theorem C14_volcanic_counted_once_udm : forall p s f g a b n, (1 <= n)%nat -> (1 <= ldtime p)%nat ->
  snd (ud_energy_budget p s f g (repeat a n) (repeat b n)) =
  snd (ud_energy_budget p (shift_prev s a b) (f + a) (g + b) (repeat 0 n) (repeat 0 n)) /\
  rmean (repeat a n) = a.
Proof. exact volc_once. Qed.
Print Assumptions C14_volcanic_counted_once_udm.

Example C14_udm_example : (1 <= 12)%nat /\ (1 <= ldtime (ud_default (A := R)))%nat.
Proof. cbn. lia. Qed.

(** ** C16 *)
Theorem C16_system_uniquely_solvable : forall p rl t u d,
  admissible p -> 0 <= rl -> small_upwell p t -> small_upwell p u -> length d = lm p ->
  let gn := foan p + rl / rlamdo p + ebbeta p / rlamdo p in
  let gs := foas p + rl / rlamdo p + ebbeta p / rlamdo p in
  let v := setup_ebud2 p gn gs t u in
  (solves (acoefn v) (bcoefn v) (ccoefn v) d (band (acoefn v) (bcoefn v) (ccoefn v) d) /\
   (forall x, solves (acoefn v) (bcoefn v) (ccoefn v) d x -> x = band (acoefn v) (bcoefn v) (ccoefn v) d) /\
   forall i, (i < lm p)%nat -> 0 < pivot (acoefn v) (bcoefn v) (ccoefn v) i) /\
  (solves (acoefs v) (bcoefs v) (ccoefs v) d (band (acoefs v) (bcoefs v) (ccoefs v) d) /\
   (forall x, solves (acoefs v) (bcoefs v) (ccoefs v) d x -> x = band (acoefs v) (bcoefs v) (ccoefs v) d) /\
   forall i, (i < lm p)%nat -> 0 < pivot (acoefs v) (bcoefs v) (ccoefs v) i).
Proof. exact system_solvable. Qed.
Print Assumptions C16_system_uniquely_solvable.

(** Every state a run can reach carries coefficients of this form. *)
Theorem C16_run_states_refreshed : forall p ins n, refreshed p (ud_states p ins (ud_init p) n).
Proof. exact states_refreshed. Qed.
Print Assumptions C16_run_states_refreshed.

Example C16_example : admissible ud_default /\ forall t, 0 <= t <= 20 -> small_upwell ud_default t.
Proof. split; [exact default_admissible|exact default_small_upwell]. Qed.

(** The banded solver on a 3-layer system. *)
Example C16_band_example :
  band (N := QNum) [1; 2; 0]%Q [4; 5; 6]%Q [0; 1; 3]%Q [6; 20; 22]%Q = [1; 2; 3]%Q \/
  Qeq_bool (nth 0 (band (N := QNum) [1; 2; 0]%Q [4; 5; 6]%Q [0; 1; 3]%Q [6; 20; 22]%Q) 0%Q) 1 &&
  Qeq_bool (nth 1 (band (N := QNum) [1; 2; 0]%Q [4; 5; 6]%Q [0; 1; 3]%Q [6; 20; 22]%Q) 0%Q) 2 &&
  Qeq_bool (nth 2 (band (N := QNum) [1; 2; 0]%Q [4; 5; 6]%Q [0; 1; 3]%Q [6; 20; 22]%Q) 0%Q) 3 = true.
Proof. right. vm_compute. reflexivity. Qed.

(** ** C17 *)
Theorem C17_substep_heat_conserved : forall p s fnh fsh vn vs k, refreshed p s -> admissible p -> 0 <= u_rlamda s ->
  efficacy p = 1 -> ebbeta p = 0 ->
  let x := year_acc p s fnh fsh vn vs k in
  let x' := year_acc p s fnh fsh vn vs (S k) in
  small_upwell p (x_t1n x) -> small_upwell p (x_t1s x) ->
  exists air_n air_s,
    x_an x' = x_an x + air_n / INR (ldtime p) /\ x_as x' = x_as x + air_s / INR (ldtime p) /\
    ocean p (x_tn x') (x_ts x') - ocean p (x_tn x) (x_ts x) =
      year_s / INR (ldtime p) / c_solver *
        (foan p * rlamdo p * (air_n - nth 0 (x_tn x') 0) + foas p * rlamdo p * (air_s - nth 0 (x_ts x') 0)) /\
    foan p * rlamdo p * (air_n - nth 0 (x_tn x') 0) =
      dq p k fnh (u_pfn s) vn (Nat.modulo k (length vn)) - u_rlamda s * air_n /\
    foas p * rlamdo p * (air_s - nth 0 (x_ts x') 0) =
      dq p k fsh (u_pfs s) vs (Nat.modulo k (length vn)) - u_rlamda s * air_s.
Proof. exact substep_heat. Qed.
Print Assumptions C17_substep_heat_conserved.

(** With an efficacy and interhemispheric air exchange the balance has two further terms: the air
    temperatures [lagged_air] that use the other hemisphere's sea temperature before the step, and a
    spurious loss proportional to [efficacy - 1]. *)
Theorem C17_substep_heat_general : forall p s fnh fsh vn vs, refreshed p s -> admissible p -> 0 <= u_rlamda s ->
  forall k, let x := year_acc p s fnh fsh vn vs k in
  let x' := year_acc p s fnh fsh vn vs (S k) in
  small_upwell p (x_t1n x) -> small_upwell p (x_t1s x) ->
  ocean p (x_tn x') (x_ts x') - ocean p (x_tn x) (x_ts x) =
    year_s / INR (ldtime p) / c_solver *
      (foan p * rlamdo p * (lagged_air_n p s fnh fsh vn vs x x' k - nth 0 (x_tn x') 0)
       + foas p * rlamdo p * (lagged_air_s p s fnh fsh vn vs x x' k - nth 0 (x_ts x') 0))
    - (efficacy p - 1) * (2 * (akapa p / 10000) * (year_s / INR (ldtime p)) / 100) *
      (foan p * (nth 0 (x_tn x') 0 - nth 1 (x_tn x') 0) + foas p * (nth 0 (x_ts x') 0 - nth 1 (x_ts x') 0)).
Proof. exact substep_heat_general. Qed.
Print Assumptions C17_substep_heat_general.

(** Over a year, in reported quantities only. *)
Theorem C17_year_heat_conserved : forall p s fnh fsh vn vs m, refreshed p s -> admissible p -> 0 <= u_rlamda s ->
  efficacy p = 1 -> ebbeta p = 0 -> length vs = length vn -> (length vn <> 0)%nat -> ldtime p = (m * length vn)%nat ->
  (forall k, (k < ldtime p)%nat -> small_upwell p (x_t1n (year_acc p s fnh fsh vn vs k)) /\
                                   small_upwell p (x_t1s (year_acc p s fnh fsh vn vs k))) ->
  let o := snd (ud_energy_budget p s fnh fsh vn vs) in
  let L := INR (ldtime p) in
  let mean_forcing f prev v := ((L + 1) * f + (L - 1) * prev) / (2 * L) + rmean v in
  y_ohctot o - ohctot p (u_tn s) (u_ts s) =
  ohc_unit * (year_s / c_solver) *
    (mean_forcing fnh (u_pfn s) vn + mean_forcing fsh (u_pfs s) vs - 2 * u_rlamda s * y_air o).
Proof. exact heat_budget_year. Qed.
Print Assumptions C17_year_heat_conserved.

(** Finding: the reported heat content uses another heat capacity than the solver, so reported
    heat in joules is 0.12 % less than the energy the solver put into the ocean. *)
Theorem C17_reported_capacity_refuted :
  ohc_unit / c_solver <> 255000000000000 / 10000000000000000000000 /\
  99879 / 100000 < (ohc_unit / c_solver) / (255000000000000 / 10000000000000000000000) < 99880 / 100000.
Proof. exact capacity_gap. Qed.
Print Assumptions C17_reported_capacity_refuted.

(** Both sides of the yearly balance evaluated (previous forcing and temperatures are 0). *)
Example C17_example :
  match exq_run [5]%Q with
  | [o] => Qeq_bool (y_ohctot o)
    (1030 * (3997 / 10000000000000000000000) * 255000000000000 * (86400 * 365) / (412188696 / 100) *
     (((3 * 5 + 1 * 0) / (2 * 2) + (1/20)) + ((3 * 10 + 1 * 0) / (2 * 2)) - 2 * 2 * y_air o))%Q &&
    Qle_bool (1/1000) (y_ohctot o)
  | _ => false
  end = true.
Proof. vm_compute. reflexivity. Qed.

(** ** C18 *)
Theorem C18_no_forcing_no_response : forall p ins, Forall zero_in ins -> Forall all_zero (ud_run p (ud_init p) ins).
Proof. exact run_zero_init. Qed.
Print Assumptions C18_no_forcing_no_response.

Example C18_example :
  let z := {| i_w := 3; i_nh := 0; i_sh := 0; i_vn := [0; 0]; i_vs := [0; 0] |} in
  Forall zero_in [z; z; z].
Proof. repeat constructor. Qed.

(** ** C19 *)
Theorem C19_nonnegative : forall p, admissible p -> stable p -> forall ins,
  (forall n, nonneg_in (ins n) /\ 0 <= u_rlamda (ud_set_feedback p (ud_states p ins (ud_init p) n) (i_w (ins n))) /\
     forall k, (k < ldtime p)%nat ->
       let x := year_acc p (ud_set_feedback p (ud_states p ins (ud_init p) n) (i_w (ins n)))
                  (i_nh (ins n)) (i_sh (ins n)) (i_vn (ins n)) (i_vs (ins n)) k in
       upwelling_not_reversed p (x_t1n x) /\ upwelling_not_reversed p (x_t1s x)) ->
  forall n, nonneg_out (snd (ud_year p (ud_states p ins (ud_init p) n) (ins n))).
Proof. exact states_nonneg. Qed.
Print Assumptions C19_nonnegative.

(** With constant upwelling no condition on the computed temperatures is left. *)
Theorem C19_nonnegative_constant_upwelling : forall p, admissible p -> stable p -> threstemp p = 0 -> forall ins,
  (forall n, nonneg_in (ins n) /\ 0 <= feedback p (i_w (ins n))) ->
  forall n, nonneg_out (snd (ud_year p (ud_states p ins (ud_init p) n) (ins n))).
Proof. exact states_nonneg_const. Qed.
Print Assumptions C19_nonnegative_constant_upwelling.

Theorem C19_monotone : forall p, admissible p -> stable p -> threstemp p = 0 -> forall ins ins',
  (forall n, in_le (ins n) (ins' n) /\ 0 <= feedback p (i_w (ins n))) ->
  forall n, out_le (snd (ud_year p (ud_states p ins (ud_init p) n) (ins n)))
                   (snd (ud_year p (ud_states p ins' (ud_init p) n) (ins' n))).
Proof. exact states_mono. Qed.
Print Assumptions C19_monotone.

(** [ud_states] is the sequence of states behind the reported years. *)
Theorem C19_states_are_reported : forall p ins s n m, (m < n)%nat ->
  nth_error (ud_run p s (map ins (seq 0 n))) m = Some (snd (ud_year p (ud_states p ins s m) (ins m))).
Proof. exact ud_states_run. Qed.
Print Assumptions C19_states_are_reported.

Example C19_example : admissible ud_default /\ stable ud_default /\
  (forall t, 0 <= t <= 20 -> upwelling_not_reversed ud_default t).
Proof.
  split; [exact default_admissible|split; [exact default_stable|]]. intros t Ht. right.
  unfold ud_default; cbn [threstemp]. rnum. lra.
Qed.
Example C19_values :
  match exq_run [5]%Q, exq_run [6]%Q with
  | [o], [u] => Qle_bool (1/10) (y_dtemp o) && Qle_bool (y_dtemp o + (1/100)) (y_dtemp u)
  | _, _ => false
  end = true.
Proof. vm_compute. reflexivity. Qed.

(** ** C20 *)
Theorem C20_ohc700_exact : forall p tn ts, 0 < mixed p <= 700 -> (8 <= lm p)%nat ->
  ohc700 p tn ts = Some (ohc_unit * column_heat 700 (layers p) (mean_column p tn ts)).
Proof. exact ohc700_exact. Qed.
Print Assumptions C20_ohc700_exact.

(** Finding: mixed layers between 700 and 800 m are counted with less than 700 m. *)
Theorem C20_ohc700_too_shallow : forall p tn ts, 700 < mixed p < 800 -> (1 <= lm p)%nat ->
  ohc700 p tn ts = Some (ohc_unit * ((8 - mixed p / 100) * mixed p) * (foan p * nth 0 tn 0 + foas p * nth 0 ts 0))
  /\ (8 - mixed p / 100) * mixed p < 700.
Proof. exact ohc700_wrong. Qed.
Print Assumptions C20_ohc700_too_shallow.

(** Finding: from 800 m on the index is negative and the sum runs to the sea floor. *)
Theorem C20_ohc700_to_bottom : forall p tn ts, 800 <= mixed p < 900 -> (2 <= lm p)%nat ->
  ohc700 p tn ts = Some (ohctot p tn ts - (mixed p / 100 - 8) * (ohc_unit * 100 *
     (foan p * nth (lm p - 1) tn 0 + foas p * nth (lm p - 1) ts 0))).
Proof. exact ohc700_bottom. Qed.
Print Assumptions C20_ohc700_to_bottom.

Example C20_example : column_heat 700 [250; 100; 100; 100; 100; 100] [2; 1; 0; 0; 5; 7] = 250 * 2 + 100 * 1 + 100 * 5 + 50 * 7.
Proof.
  cbn [column_heat]. repeat (rewrite ?Rmax_right by lra; rewrite ?Rmin_left by lra; rewrite ?Rmin_right by lra). lra.
Qed.

(** ** C21 *)
Theorem C21_ramp : forall p f prev (v w : list R), (1 <= ldtime p)%nat -> (length v <> 0)%nat ->
  dq p (ldtime p - 1) f prev w (Nat.modulo (ldtime p - 1) (length v)) = f + nth (Nat.modulo (ldtime p - 1) (length v)) w 0 /\
  (forall k, dq p (S k) f prev [] 0 - dq p k f prev [] 0 = (f - prev) / INR (ldtime p)) /\
  (forall k j, dq p k f f w j = f + nth j w 0).
Proof. exact ramp_facts. Qed.
Print Assumptions C21_ramp.

(** Mean sub-step forcing; with [m] repetitions of the volcanic vector its mean enters exactly. *)
Theorem C21_mean : forall p f prev (v w : list R) m, (1 <= ldtime p)%nat -> length w = length v -> (length v <> 0)%nat ->
  ldtime p = (m * length v)%nat ->
  sumn (fun k => dq p k f prev w (Nat.modulo k (length v))) (ldtime p) / INR (ldtime p) =
  ((INR (ldtime p) + 1) * f + (INR (ldtime p) - 1) * prev) / (2 * INR (ldtime p)) + rmean w.
Proof. exact forcing_mean. Qed.
Print Assumptions C21_mean.

(** The forcing used inside sub-step [k] is [dq] with index [k mod length]: the first surface
    temperature of a sub-step depends on the forcing only through it. *)
Theorem C21_substep_uses_dq : forall p s x k f g v w f' g' v' w' s', length v' = length v ->
  dq p k f (u_pfn s) v (Nat.modulo k (length v)) = dq p k f' (u_pfn s') v' (Nat.modulo k (length v')) ->
  dq p k g (u_pfs s) w (Nat.modulo k (length v)) = dq p k g' (u_pfs s') w' (Nat.modulo k (length v')) ->
  u_v1 s' = u_v1 s -> u_gamn s' = u_gamn s -> u_gams s' = u_gams s -> u_fnx s' = u_fnx s -> u_fsx s' = u_fsx s ->
  substep p s' f' g' v' w' x k = substep p s f g v w x k.
Proof. exact substep_dq. Qed.
Print Assumptions C21_substep_uses_dq.

Example C21_example :
  let p := exq in
  Qeq_bool (dq (N := QNum) p 1 5%Q 3%Q [1; 2]%Q (Nat.modulo 1 2)) 7 &&
  Qeq_bool (dq (N := QNum) p 0 5%Q 3%Q [1; 2]%Q (Nat.modulo 0 2)) 5 = true.
Proof. vm_compute. reflexivity. Qed.

(** ** C22 *)
Theorem C22_mirror : forall p, beto p = 0 \/ (foan p = foas p /\ foas p <> 0) -> forall ins,
  Forall (fun i => length (i_vn i) = length (i_vs i)) ins ->
  ud_run (mirror_pam p) (ud_init (mirror_pam p)) (map mirror_in ins) = map mirror_out (ud_run p (ud_init p) ins).
Proof. exact mirror_run. Qed.
Print Assumptions C22_mirror.

Theorem C22_symmetric_forever : forall p ins, foan p = foas p -> foas p <> 0 ->
  Forall (fun i => i_nh i = i_sh i /\ i_vn i = i_vs i) ins ->
  map mirror_out (ud_run p (ud_init p) ins) = ud_run p (ud_init p) ins.
Proof. exact symmetric_run. Qed.
Print Assumptions C22_symmetric_forever.

(** The condition is needed: with exchange and different fractions the mirror image differs. *)
Example C22_condition_needed :
  let pm := {| rlamdo := 15; akapa := 66/100; cpi := 21/100; W := 22/10; beto := 69/10; threstemp := 0; lambda := 1/2;
     mixed := 50; foan := 3/4; foas := 1/2; ebbeta := 0; lm := 2; ldtime := 2; efficacy := 1; delta_aero := 0 |}%Q in
  let i := {| i_w := 0; i_nh := 3; i_sh := 1; i_vn := [0]; i_vs := [0] |}%Q in
  let mi := {| i_w := 0; i_nh := 1; i_sh := 3; i_vn := [0]; i_vs := [0] |}%Q in
  match ud_run (N := QNum) exq (ud_init (N := QNum) exq) [i], ud_run (N := QNum) pm (ud_init (N := QNum) pm) [mi] with
  | [o], [u] => Qeq_bool (y_nh o) (y_sh u)
  | _, _ => true
  end = false.
Proof. vm_compute. reflexivity. Qed.

(** ** C23 *)
Theorem C23_first_substep_undisturbed : forall p s f g v w, (1 <= ldtime p)%nat -> refreshed p s ->
  x_v2 (year_acc p s f g v w 1) = setup_ebud2 (with_thr p 0) (u_gamn s) (u_gams s) 0 0.
Proof. exact first_substep_v2. Qed.
Print Assumptions C23_first_substep_undisturbed.

Theorem C23_threshold_without_influence : forall p t ins, ldtime p = 1%nat ->
  ud_run (with_thr p t) (ud_init (with_thr p t)) ins = ud_run p (ud_init p) ins.
Proof. exact thr_run. Qed.
Print Assumptions C23_threshold_without_influence.

(** With two sub-steps the threshold does matter. *)
Example C23_two_substeps_differ :
  let p t := {| rlamdo := 15; akapa := 66/100; cpi := 21/100; W := 22/10; beto := 69/10; threstemp := t; lambda := 1/2;
     mixed := 50; foan := 3/4; foas := 1/2; ebbeta := 0; lm := 2; ldtime := 2; efficacy := 1; delta_aero := 0 |}%Q in
  let i := {| i_w := 0; i_nh := 3; i_sh := 1; i_vn := [0]; i_vs := [0] |}%Q in
  match ud_run (N := QNum) (p 0%Q) (ud_init (N := QNum) (p 0%Q)) [i], ud_run (N := QNum) (p 1%Q) (ud_init (N := QNum) (p 1%Q)) [i] with
  | [o], [u] => Qeq_bool (y_nh o) (y_nh u)
  | _, _ => true
  end = false.
Proof. vm_compute. reflexivity. Qed.

(** ** C24 *)
Theorem C24_aggregates : forall p s f g v w, let o := snd (ud_energy_budget p s f g v w) in
  y_dtemp o = (y_nh o + y_sh o) / 2 /\ y_air o = (y_air_n o + y_air_s o) / 2 /\ y_sea o = (y_sea_n o + y_sea_s o) / 2 /\
  y_rib o = (y_ribn o + y_ribs o) / 2 /\
  y_nh o = foan p * y_sea_n o + (1 - foan p) * y_air_n o /\
  y_sh o = foas p * y_sea_s o + (1 - foas p) * y_air_s o.
Proof. exact aggregates. Qed.
Print Assumptions C24_aggregates.

(** Imbalance: forcing with the year's mean volcanic forcing, less the feedback on the blended temperature of the
    hemisphere, less the flux that the efficacy takes out. *)
Theorem C24_imbalance : forall p s f g v w, let o := snd (ud_energy_budget p s f g v w) in
  y_anom o = extra_flux p (y_tn o) (y_ts o) (u_tn s) (u_ts s) /\
  y_ribn o = f + rmean v - u_rlamda s * y_nh o - y_anom o /\
  y_ribs o = g + rmean w - u_rlamda s * y_sh o - y_anom o.
Proof. exact imbalance. Qed.
Print Assumptions C24_imbalance.

Example C24_example :
  match exq_run [5]%Q with
  | [o] => Qeq_bool (y_nh o) ((1/2) * y_sea_n o + (1/2) * y_air_n o)%Q && negb (Qeq_bool (y_sea_n o) (y_air_n o))
              && negb (Qeq_bool (y_nh o) (y_sh o))
  | _ => false
  end = true.
Proof. vm_compute. reflexivity. Qed.

(** ** C89 *)
Theorem C89_equilibrium : forall p, admissible p -> stable p -> threstemp p = 0 -> forall rl f v t ins,
  efficacy p = 1 -> 0 <= rl -> rl * t = f + v -> (forall n, forced p rl f f v v (ins n)) ->
  forall n, out_steady p t (snd (ud_year p (ud_states p ins (steady_state p t f) n) (ins n))).
Proof. exact equilibrium. Qed.
Print Assumptions C89_equilibrium.

Theorem C89_bounded : forall p, admissible p -> stable p -> threstemp p = 0 -> forall rl fa fb va vb ins,
  efficacy p = 1 -> cpi p <= 1 -> 0 < rl -> fa <= 0 <= fb -> va <= 0 <= vb -> (forall n, forced p rl fa fb va vb (ins n)) ->
  forall n, out_within ((fa + va) / rl) ((fb + vb) / rl) (snd (ud_year p (ud_states p ins (ud_init p) n) (ins n))).
Proof. exact bounded. Qed.
Print Assumptions C89_bounded.

(** The default parameters without the threshold of upwelling meet the conditions; forcing between -1 and 4 with eruptions
    down to -5 keeps the warming between -3.66 and 2.44. *)
Example C89_example : let p := with_thr ud_default 0 in
  let ins n := {| i_w := 0; i_nh := if Nat.even n then 4 else -1; i_sh := INR (Nat.min n 8) / 2; i_vn := [0; -5]; i_vs := [-2; 0] |} in
  (admissible p /\ stable p /\ threstemp p = 0 /\ efficacy p = 1 /\ cpi p <= 1 /\ forall n, forced p (100 / 61) (-1) 4 (-5) 0 (ins n)) /\
  forall n, let o := snd (ud_year p (ud_states p ins (ud_init p) n) (ins n)) in - (366 / 100) <= y_dtemp o <= 244 / 100.
Proof.
  set (p := with_thr ud_default 0). set (ins := fun n => {| i_w := 0; i_nh := if Nat.even n then 4 else -1; i_sh := INR (Nat.min n 8) / 2; i_vn := [0; -5]; i_vs := [-2; 0] |}).
  cbv zeta. change (let ins0 := ins in (admissible p /\ stable p /\ threstemp p = 0 /\ efficacy p = 1 /\ cpi p <= 1 /\ forall n, forced p (100 / 61) (-1) 4 (-5) 0 (ins0 n)) /\
    forall n, - (366 / 100) <= y_dtemp (snd (ud_year p (ud_states p ins0 (ud_init p) n) (ins0 n))) <= 244 / 100). cbv zeta.
  assert (C : admissible p /\ stable p /\ threstemp p = 0 /\ efficacy p = 1 /\ cpi p <= 1 /\ forall n, forced p (100 / 61) (-1) 4 (-5) 0 (ins n)).
  { split; [exact no_thr_admissible|]. split; [exact no_thr_stable|]. split; [reflexivity|]. split; [reflexivity|].
    split; [unfold p, ud_default, with_thr; cbn [cpi]; rnum; rdec; lra|]. intros n.
    assert (B : 0 <= INR (Nat.min n 8) <= 8).
    { split; [apply pos_INR|]. replace 8 with (INR 8) by (cbn; lra). apply le_INR. apply Nat.le_min_r. }
    constructor; cbn [ins i_w i_nh i_sh i_vn i_vs].
    - unfold feedback, p, with_thr, ud_default. cbn [delta_aero lambda]. rnum. rdec. destruct (Req_EM_T 0 0); lra.
    - destruct (Nat.even n); split; lra.
    - split; lra.
    - repeat (apply Forall_cons; [split; lra|]). apply Forall_nil.
    - repeat (apply Forall_cons; [split; lra|]). apply Forall_nil.
    - reflexivity.
    - discriminate. }
  split; [exact C|]. destruct C as (C1 & C2 & C3 & C4 & C5 & C6). intros n.
  destruct (C89_bounded p C1 C2 C3 (100 / 61) (-1) 4 (-5) 0 ins C4 C5 ltac:(lra) ltac:(lra) ltac:(lra) C6 n) as (_ & _ & B).
  pose proof (Forall_inv B) as [B1 B2]. cbv beta in *. lra.
Qed.

(** Three layers in equilibrium with a forcing of 3 and volcanic forcing 1 (warming 2), two years of two sub-steps: nothing moves. *)
Definition sxq : ud_pam Q :=
  {| rlamdo := 15; akapa := 66/100; cpi := 21/100; W := 22/10; beto := 69/10; threstemp := 0; lambda := 1/2;
     mixed := 50; foan := 1/2; foas := 3/4; ebbeta := 1/3; lm := 3; ldtime := 2; efficacy := 1; delta_aero := 0 |}%Q.
Definition sxq_profile : list Q :=
  let r := ((22/10) / (2 * ((66/100) / 10000) * 31536000))%Q in
  let a := (2 * (1 - 100 * r * (79/100)))%Q in [2; a; (a + 200 * r * (21/100) * 2) / (1 + 200 * r)]%Q.
Definition sxq_state : ud_state Q :=
  let s := ud_init (N := QNum) sxq in
  {| u_tn := sxq_profile; u_ts := sxq_profile; u_pfn := 3; u_pfs := 3; u_rlamda := u_rlamda s; u_fnx := u_fnx s; u_fsx := u_fsx s;
     u_gamn := u_gamn s; u_gams := u_gams s; u_v1 := u_v1 s; u_v2 := u_v2 s |}%Q.
Example C89_steady_example :
  let i := {| i_w := 0; i_nh := 3; i_sh := 3; i_vn := [1]; i_vs := [1] |}%Q in
  match ud_run (N := QNum) sxq sxq_state [i; i] with
  | [o; u] => forallb (fun x => Qeq_bool x 2) [y_dtemp o; y_air_n o; y_sea_s o; y_dtemp u; y_nh u] && Qeq_bool (y_rib u) 0
              && forallb (fun x => Qeq_bool (fst x) (snd x)) (combine (y_tn u ++ y_ts u) (sxq_profile ++ sxq_profile))
              && Qle_bool (nth 1 sxq_profile 0%Q) (192/100) && Qle_bool (19/10) (nth 1 sxq_profile 0%Q)
  | _ => false
  end = true.
Proof. vm_compute. reflexivity. Qed.

(** ** C90 *)
Theorem C90_rate : forall p, admissible p -> stable p -> threstemp p = 0 -> efficacy p = 1 -> cpi p <= 1 -> delta_aero p = 0 ->
  ebbeta p = 0 -> small_upwell p 0 -> 0 < lambda p -> forall f v i, 0 <= f -> 0 <= v -> forced p (1 / lambda p) f f v v i -> forall n,
  let t := lambda p * (f + v) in
  0 <= t - y_dtemp (snd (ud_year p (ud_states p (fun _ => i) (ud_init p) (S n)) i)) <=
  ocean p (steady_profile p t) (steady_profile p t) * c_solver * lambda p / (2 * year_s) * (1 + 1 / (lambda p * rlamdo p)) / INR (S n).
Proof. exact temp_rate. Qed.
Print Assumptions C90_rate.

Theorem C90_converges : forall p, admissible p -> stable p -> threstemp p = 0 -> efficacy p = 1 -> cpi p <= 1 -> delta_aero p = 0 ->
  ebbeta p = 0 -> small_upwell p 0 -> 0 < lambda p -> forall f v i, 0 <= f -> 0 <= v -> forced p (1 / lambda p) f f v v i ->
  Un_cv (fun n => y_dtemp (snd (ud_year p (ud_states p (fun _ => i) (ud_init p) n) i))) (lambda p * (f + v)).
Proof. exact temp_cv. Qed.
Print Assumptions C90_converges.

(** Forcing 4 with the default parameters without threshold: the warming tends to 2.44, whatever the ocean. *)
Example C90_example :
  Un_cv (fun n => y_dtemp (snd (ud_year (with_thr ud_default 0)
      (ud_states (with_thr ud_default 0) (fun _ => {| i_w := 0; i_nh := 4; i_sh := 4; i_vn := [0]; i_vs := [0] |}) (ud_init (with_thr ud_default 0)) n)
      {| i_w := 0; i_nh := 4; i_sh := 4; i_vn := [0]; i_vs := [0] |}))) (244 / 100).
Proof.
  replace (244 / 100) with (lambda (with_thr (ud_default (A := R)) 0) * (4 + 0)) by (unfold with_thr, ud_default; cbn [lambda]; rnum; rdec; lra).
  apply C90_converges; try reflexivity; try lra.
  - exact no_thr_admissible.
  - exact no_thr_stable.
  - unfold with_thr, ud_default; cbn [cpi]; rnum; rdec; lra.
  - exact no_thr_upwell.
  - unfold with_thr, ud_default; cbn [lambda]; rnum; rdec; lra.
  - constructor; cbn [i_w i_nh i_sh i_vn i_vs].
    + unfold feedback, with_thr, ud_default. cbn [delta_aero lambda]. rnum. destruct (Req_EM_T 0 0); lra.
    + split; lra.
    + split; lra.
    + apply Forall_cons; [split; lra|apply Forall_nil].
    + apply Forall_cons; [split; lra|apply Forall_nil].
    + reflexivity.
    + discriminate.
Qed.
