(** * M_TwoLayer: /repo/src/ciceroscm/thermal_model/two_layer_ocean.py *)
From Coq Require Import ZArith List.
From Verif Require Import Num.
Import ListNotations.

Section TwoLayer.
Context {A : Type} {N : Num A}.
Local Open Scope num_scope.

(** constants.py 12-21 *)
Definition SEC_DAY : A := #86400.
Definition DAY_YEAR : A := #365.
Definition WATER_DENSITY : A := #1000.
Definition WATER_HEAT_CAPACITY : A := #4184.
Definition OCEAN_AREA : A := nofZ (361 * 10 ^ 12).

(** The completed parameter set (two_layer_ocean.py 24-38, completed by
    [cut_and_check_pamset], see M_Utils). *)
Record tl_pam := {
  tl_lambda : A; tl_mixed : A; tl_deep : A; tl_k : A; tl_eff : A;
  tl_foan : A; tl_foas : A; tl_delta : A }.

(** two_layer_ocean.py 24-37 *)
Definition tl_default : tl_pam :=
  {| tl_lambda := dec 374 2 / #3; tl_mixed := #50; tl_deep := #1200; tl_k := dec 5 1;
     tl_eff := #1; tl_foan := dec 61 2; tl_foas := dec 81 2; tl_delta := #0 |}.

(** two_layer_ocean.py 73-78 *)
Definition tl_c_fast (p : tl_pam) : A :=
  tl_mixed p * WATER_DENSITY * WATER_HEAT_CAPACITY / (SEC_DAY * DAY_YEAR).
(** two_layer_ocean.py 79-84 *)
Definition tl_c_slow (p : tl_pam) : A :=
  tl_deep p * WATER_DENSITY * WATER_HEAT_CAPACITY / (SEC_DAY * DAY_YEAR).

(** mutable attributes *)
Record tl_state := { temp_fast : A; temp_slow : A; lambda_eff : A }.

(** two_layer_ocean.py 87-89 *)
Definition tl_init (p : tl_pam) : tl_state :=
  {| temp_fast := #0; temp_slow := #0; lambda_eff := tl_lambda p |}.

(** two_layer_ocean.py 98-100 *)
Definition tl_get_feedback (s : tl_state) : A := lambda_eff s.

(** two_layer_ocean.py 102-114 *)
Definition tl_set_feedback (p : tl_pam) (s : tl_state) (w_aero : A) : tl_state :=
  {| temp_fast := temp_fast s; temp_slow := temp_slow s;
     lambda_eff := tl_lambda p + w_aero * tl_delta p |}.

(** the returned dictionary, two_layer_ocean.py 223-233 ([dtemp_sea] repeats [dtemp_fast]) *)
Record tl_out := {
  o_dtemp : A; o_fast : A; o_slow : A; o_RIB : A; o_OHCTOT : A;
  o_OHC_MIXED : A; o_OHC_DEEP : A; o_sea : A; o_OHC700 : A }.

(** two_layer_ocean.py 147: the volcanic arguments are arrays of equal length. *)
Definition tl_forc (forc_nh forc_sh : A) (fn_volc fs_volc : list A) : A :=
  (forc_nh + forc_sh) / #2 + nmean (map2 nadd fn_volc fs_volc).

(** two_layer_ocean.py 204-219 *)
Definition tl_ohc700 (p : tl_pam) (ohc_mixed ohc_deep : A) : A :=
  if nleb #700 (tl_mixed p) then ohc_mixed * (#700 / tl_mixed p)
  else
    let remaining_depth := #700 - tl_mixed p in
    let deep_fraction := nmin (remaining_depth / tl_deep p) #1 in
    ohc_mixed + ohc_deep * deep_fraction.

(** two_layer_ocean.py 116-233: [energy_budget] *)
Definition tl_energy_budget (p : tl_pam) (s : tl_state) (forc_nh forc_sh : A) (fn_volc fs_volc : list A)
  : tl_state * tl_out :=
  let forc := tl_forc forc_nh forc_sh fn_volc fs_volc in
  let dtemp_fast :=
    (forc - temp_fast s * lambda_eff s - tl_k p * tl_eff p * (temp_fast s - temp_slow s)) / tl_c_fast p in
  let dtemp_slow := tl_k p * (temp_fast s - temp_slow s) / tl_c_slow p in
  let tf := temp_fast s + dtemp_fast in
  let ts := temp_slow s + dtemp_slow in
  let rib_toa := forc - lambda_eff s * tf - (tl_eff p - #1) * tl_k p * (tf - ts) in
  let dtemp := forc / lambda_eff s * (#1 - (tl_foan p + tl_foas p) / #2)
               + tf * (tl_foan p + tl_foas p) / #2 in
  let ohc_mixed := tf * tl_c_fast p * (SEC_DAY * DAY_YEAR) * OCEAN_AREA / nofZ (10 ^ 22) in
  let ohc_deep := ts * tl_c_slow p * (SEC_DAY * DAY_YEAR) * OCEAN_AREA / nofZ (10 ^ 22) in
  ({| temp_fast := tf; temp_slow := ts; lambda_eff := lambda_eff s |},
   {| o_dtemp := dtemp; o_fast := tf; o_slow := ts; o_RIB := rib_toa;
      o_OHCTOT := ohc_mixed + ohc_deep; o_OHC_MIXED := ohc_mixed; o_OHC_DEEP := ohc_deep;
      o_sea := tf; o_OHC700 := tl_ohc700 p ohc_mixed ohc_deep |}).

(** One year of the driver loop, ciceroscm.py 300-312: [set_feedback_gregory(w_aero)] and
    [energy_budget(fn, fs, volc_n[row], volc_s[row])]. *)
Record tl_in := { i_w : A; i_nh : A; i_sh : A; i_vn : list A; i_vs : list A }.

Definition tl_year (p : tl_pam) (s : tl_state) (i : tl_in) : tl_state * tl_out :=
  tl_energy_budget p (tl_set_feedback p s (i_w i)) (i_nh i) (i_sh i) (i_vn i) (i_vs i).

(** All years of a run. *)
Fixpoint tl_run (p : tl_pam) (s : tl_state) (ins : list tl_in) {struct ins} : list tl_out :=
  match ins with
  | [] => []
  | i :: r => let '(s', o) := tl_year p s i in o :: tl_run p s' r
  end.
End TwoLayer.
Arguments tl_pam A : clear implicits.
Arguments tl_state A : clear implicits.
Arguments tl_out A : clear implicits.
Arguments tl_in A : clear implicits.
