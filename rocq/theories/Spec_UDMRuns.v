(** * Spec_UDMRuns: vocabulary for statements about the upwelling-diffusion model *)
From Coq Require Import Reals ZArith List.
From Verif Require Import Num M_TwoLayer M_UDM Spec_TwoLayer Spec_UDM.
Import ListNotations.
Open Scope R_scope.

(** Admissible parameters: at least two layers and one sub-step, positive thickness, exchange and
    ocean fractions, nonnegative diffusivity, efficacy and interhemispheric air exchange. *)
Record admissible (p : ud_pam R) : Prop := {
  ad_lm : (2 <= lm p)%nat; ad_ld : (1 <= ldtime p)%nat; ad_mixed : 0 < mixed p;
  ad_akapa : 0 <= akapa p; ad_rlamdo : 0 < rlamdo p; ad_foan : 0 < foan p; ad_foas : 0 < foas p;
  ad_eff : 0 <= efficacy p; ad_ebbeta : 0 <= ebbeta p }.

(** Metres upwelled in one sub-step when the sea surface is warmer by [t]:
    [W] metres per year, reduced by 30 % at [threstemp] unless that is 0. *)
Definition upwell (p : ud_pam R) (t : R) : R :=
  W p * (if Req_EM_T (threstemp p) 0 then 1 else 1 - 3 / 10 * t / threstemp p) / INR (ldtime p).

(** Small upwelling: less than half a deep layer and less than the mixed layer per sub-step. *)
Definition small_upwell (p : ud_pam R) (t : R) : Prop :=
  0 <= upwell p t < 50 /\ upwell p t < mixed p.

(** Derived attributes agree with the current feedback: what the constructor and
    [set_feedback_gregory] establish and [energy_budget] keeps. *)
Record refreshed (p : ud_pam R) (s : ud_state R) : Prop := {
  rf_fnx : u_fnx s = u_rlamda s + foan p * rlamdo p + ebbeta p;
  rf_fsx : u_fsx s = u_rlamda s + foas p * rlamdo p + ebbeta p;
  rf_gamn : u_gamn s = foan p + u_rlamda s / rlamdo p + ebbeta p / rlamdo p;
  rf_gams : u_gams s = foas p + u_rlamda s / rlamdo p + ebbeta p / rlamdo p;
  rf_v1 : u_v1 s = setup_ebud1 p (u_gamn s) (u_gams s);
  rf_v2 : threstemp p = 0 -> u_v2 s = setup_ebud2 p (u_gamn s) (u_gams s) 0 0;
  rf_tn : length (u_tn s) = lm p; rf_ts : length (u_ts s) = lm p }.

(** Thickness-weighted temperature sum of both hemispheres, weighted with ocean fractions:
    ocean heat per unit heat capacity and hemisphere area. *)
Definition thick (p : ud_pam R) (i : nat) : R := match i with O => mixed p | S _ => 100 end.
Definition column (p : ud_pam R) (t : list R) : R := sumn (fun i => thick p i * nth i t 0) (lm p).
Definition ocean (p : ud_pam R) (tn ts : list R) : R := foan p * column p tn + foas p * column p ts.

(** seconds in a year *)
Definition year_s : R := 86400 * 365.

(** Reported heat (1e22 J) per metre and kelvin of a hemisphere fully covered by ocean:
    density 1030, heat capacity 3997 J/(kg K), hemisphere area 2.55e14. *)
Definition ohc_unit : R := 1030 * (3997 / 10000000000000000000000) * 255000000000000.
(** Volumetric heat capacity the solver works with (J/(m3 K)). *)
Definition c_solver : R := 4121886.96.

(** State at the start of year [n] when year [m] has input [ins m]. *)
Fixpoint ud_states (p : ud_pam R) (ins : nat -> tl_in R) (s : ud_state R) (n : nat) : ud_state R :=
  match n with O => s | S m => fst (ud_year p (ud_states p ins s m) (ins m)) end.

(** Parameters for which every explicit coefficient of a sub-step is nonnegative. *)
Record stable (p : ud_pam R) : Prop := {
  st_cpi : 0 <= cpi p; st_beto : 0 <= beto p; st_W : 0 <= W p; st_thr : 0 <= threstemp p;
  st_foan : foan p <= 1; st_foas : foas p <= 1;
  (* upwelling is weaker than diffusion across one layer *)
  st_diff : W p * 100 <= 2 * (akapa p / 10000) * year_s;
  st_wmix : W p / INR (ldtime p) < mixed p;
  (* what sinks or is exchanged in one sub-step does not exceed a layer's content *)
  st_exp : cpi p * (W p / INR (ldtime p)) / mixed p
           + (1 + foan p / foas p) * beto p * (year_s / INR (ldtime p)) / (c_solver * mixed p) <= 1;
  st_exch : (1 + foan p / foas p) * beto p * (year_s / INR (ldtime p)) / (c_solver * 100) <= 1 }.

(** The sea surface is not so warm that upwelling would reverse. *)
Definition upwelling_not_reversed (p : ud_pam R) (t : R) : Prop :=
  threstemp p = 0 \/ 3 / 10 * t <= threstemp p.

(** Exchange of the hemispheres. *)
Definition mirror_pam (p : ud_pam R) : ud_pam R :=
  {| rlamdo := rlamdo p; akapa := akapa p; cpi := cpi p; W := W p; beto := beto p;
     threstemp := threstemp p; lambda := lambda p; mixed := mixed p; foan := foas p; foas := foan p;
     ebbeta := ebbeta p; lm := lm p; ldtime := ldtime p; efficacy := efficacy p; delta_aero := delta_aero p |}.
Definition mirror_in (i : tl_in R) : tl_in R :=
  {| i_w := i_w i; i_nh := i_sh i; i_sh := i_nh i; i_vn := i_vs i; i_vs := i_vn i |}.
Definition mirror_out (o : ud_out R) : ud_out R :=
  {| y_dtemp := y_dtemp o; y_nh := y_sh o; y_sh := y_nh o; y_tn := y_ts o; y_ts := y_tn o;
     y_air := y_air o; y_air_n := y_air_s o; y_air_s := y_air_n o; y_sea := y_sea o;
     y_sea_n := y_sea_s o; y_sea_s := y_sea_n o; y_ribn := y_ribs o; y_ribs := y_ribn o;
     y_rib := y_rib o; y_ohc700 := y_ohc700 o; y_ohctot := y_ohctot o; y_anom := y_anom o |}.

(** A parameter set with another threshold temperature. *)
Definition with_thr (p : ud_pam R) (t : R) : ud_pam R :=
  {| rlamdo := rlamdo p; akapa := akapa p; cpi := cpi p; W := W p; beto := beto p;
     threstemp := t; lambda := lambda p; mixed := mixed p; foan := foan p; foas := foas p;
     ebbeta := ebbeta p; lm := lm p; ldtime := ldtime p; efficacy := efficacy p; delta_aero := delta_aero p |}.

(** Componentwise order of temperature profiles. *)
Definition profile_le (x y : list R) : Prop := Forall2 Rle x y.

(** Everything reported is zero. *)
Definition all_zero (o : ud_out R) : Prop :=
  y_dtemp o = 0 /\ y_nh o = 0 /\ y_sh o = 0 /\ Forall (eq 0) (y_tn o) /\ Forall (eq 0) (y_ts o) /\
  y_air o = 0 /\ y_air_n o = 0 /\ y_air_s o = 0 /\ y_sea o = 0 /\ y_sea_n o = 0 /\ y_sea_s o = 0 /\
  y_ribn o = 0 /\ y_ribs o = 0 /\ y_rib o = 0 /\ (y_ohc700 o = None \/ y_ohc700 o = Some 0) /\
  y_ohctot o = 0 /\ y_anom o = 0.

(** A year with nonnegative forcing, and the order of two input years. *)
Definition nonneg_in (i : tl_in R) : Prop :=
  0 <= i_nh i /\ 0 <= i_sh i /\ Forall (Rle 0) (i_vn i) /\ Forall (Rle 0) (i_vs i).
Definition in_le (i j : tl_in R) : Prop :=
  i_w i = i_w j /\ i_nh i <= i_nh j /\ i_sh i <= i_sh j /\ Forall2 Rle (i_vn i) (i_vn j) /\ Forall2 Rle (i_vs i) (i_vs j).
Definition nonneg_out (o : ud_out R) : Prop :=
  Forall (Rle 0) (y_tn o) /\ Forall (Rle 0) (y_ts o) /\ 0 <= y_nh o /\ 0 <= y_sh o /\ 0 <= y_dtemp o /\
  0 <= y_air_n o /\ 0 <= y_air_s o /\ 0 <= y_air o /\ 0 <= y_sea_n o /\ 0 <= y_sea_s o /\ 0 <= y_sea o /\ 0 <= y_ohctot o.
Definition out_le (o u : ud_out R) : Prop :=
  profile_le (y_tn o) (y_tn u) /\ profile_le (y_ts o) (y_ts u) /\ y_nh o <= y_nh u /\ y_sh o <= y_sh u /\
  y_dtemp o <= y_dtemp u /\ y_air_n o <= y_air_n u /\ y_air_s o <= y_air_s u /\ y_air o <= y_air u /\
  y_sea_n o <= y_sea_n u /\ y_sea_s o <= y_sea_s u /\ y_sea o <= y_sea u /\ y_ohctot o <= y_ohctot u.
(** The feedback used in a year with weight [w]. *)
Definition feedback (p : ud_pam R) (w : R) : R :=
  if Req_EM_T (delta_aero p) 0 then 1 / lambda p else 1 / lambda p + w * delta_aero p.

(** Layer thicknesses and the area-weighted column. *)
Definition layers (p : ud_pam R) : list R := mixed p :: repeat 100 (lm p - 1).
Definition mean_column (p : ud_pam R) (tn ts : list R) : list R :=
  tab (lm p) (fun i => foan p * nth i tn 0 + foas p * nth i ts 0).

(** The state with another previous-year forcing. *)
Definition shift_prev (s : ud_state R) (a b : R) : ud_state R :=
  {| u_tn := u_tn s; u_ts := u_ts s; u_pfn := u_pfn s + a; u_pfs := u_pfs s + b;
     u_rlamda := u_rlamda s; u_fnx := u_fnx s; u_fsx := u_fsx s; u_gamn := u_gamn s; u_gams := u_gams s;
     u_v1 := u_v1 s; u_v2 := u_v2 s |}.

(** Air temperatures of sub-step [k] when each hemisphere sees the other's sea surface as it was
    before the step ([x]: before, [x']: after). *)
Definition lagged_air_n (p : ud_pam R) (s : ud_state R) (f g : R) (vn vs : list R) (x x' : acc R) (k : nat) : R :=
  let dqn := dq p k f (u_pfn s) vn (Nat.modulo k (length vn)) in
  let dqs := dq p k g (u_pfs s) vs (Nat.modulo k (length vn)) in
  air p (foan p) (u_fnx s) dqn (nth 0 (x_tn x') 0) (foas p) (u_fsx s) dqs (nth 0 (x_ts x) 0).
Definition lagged_air_s (p : ud_pam R) (s : ud_state R) (f g : R) (vn vs : list R) (x x' : acc R) (k : nat) : R :=
  let dqn := dq p k f (u_pfn s) vn (Nat.modulo k (length vn)) in
  let dqs := dq p k g (u_pfs s) vs (Nat.modulo k (length vn)) in
  air p (foas p) (u_fsx s) dqs (nth 0 (x_ts x') 0) (foan p) (u_fnx s) dqn (nth 0 (x_tn x) 0).

(** Yearly heat flux, beyond that of efficacy 1, from the change of the temperature of the layers below the mixed layer
    (100 m each, 4184 J/(kg K), 1000 kg/m3), spread over a year of 365 days. *)
Definition extra_flux (p : ud_pam R) (tn ts tn0 ts0 : list R) : R :=
  (efficacy p - 1) * (rsum (map (fun i => 4184 * 1000 * 100 *
     (foan p * (nth i tn 0 - nth i tn0 0) + foas p * (nth i ts 0 - nth i ts0 0))) (seq 1 (lm p - 1))) / 31536000).

(** ** Equilibrium *)
(** Upwelling over diffusion, per metre. *)
Definition up_ratio (p : ud_pam R) : R := W p / (2 * (akapa p / 10000) * year_s).
(** Warming of layer [i] in equilibrium as a share of that of the mixed layer: from one layer to the next the share approaches
    [cpi], the share of the water that sinks at the poles. *)
Fixpoint steady_share (p : ud_pam R) (i : nat) {struct i} : R :=
  match i with
  | O => 1
  | S j => match j with
           | O => 1 - 100 * up_ratio p * (1 - cpi p)
           | S _ => (steady_share p j + 200 * up_ratio p * cpi p) / (1 + 200 * up_ratio p)
           end
  end.
Definition steady_profile (p : ud_pam R) (t : R) : list R := tab (lm p) (fun i => t * steady_share p i).
(** The new object with both oceans in equilibrium with warming [t] after a year with forcing [f]. *)
Definition steady_state (p : ud_pam R) (t f : R) : ud_state R :=
  let s := ud_init p in
  {| u_tn := steady_profile p t; u_ts := steady_profile p t; u_pfn := f; u_pfs := f;
     u_rlamda := u_rlamda s; u_fnx := u_fnx s; u_fsx := u_fsx s; u_gamn := u_gamn s; u_gams := u_gams s; u_v1 := u_v1 s; u_v2 := u_v2 s |}.

Definition within (a b x : R) : Prop := a <= x <= b.
(** A year with feedback [rl], forcings of both hemispheres in [fa, fb] and volcanic forcings in [va, vb]. *)
Record forced (p : ud_pam R) (rl fa fb va vb : R) (i : tl_in R) : Prop := {
  fo_fb : feedback p (i_w i) = rl; fo_n : within fa fb (i_nh i); fo_s : within fa fb (i_sh i);
  fo_vn : Forall (within va vb) (i_vn i); fo_vs : Forall (within va vb) (i_vs i);
  fo_len : length (i_vs i) = length (i_vn i); fo_some : (length (i_vn i) <> 0)%nat }.
Definition out_within (a b : R) (o : ud_out R) : Prop :=
  Forall (within a b) (y_tn o) /\ Forall (within a b) (y_ts o) /\
  Forall (within a b) [y_dtemp o; y_nh o; y_sh o; y_air o; y_air_n o; y_air_s o; y_sea o; y_sea_n o; y_sea_s o].
(** All temperatures are [t] except those of the layers, and there is no imbalance. *)
Definition out_steady (p : ud_pam R) (t : R) (o : ud_out R) : Prop :=
  y_tn o = steady_profile p t /\ y_ts o = steady_profile p t /\
  Forall (eq t) [y_dtemp o; y_nh o; y_sh o; y_air o; y_air_n o; y_air_s o; y_sea o; y_sea_n o; y_sea_s o] /\
  Forall (eq 0) [y_ribn o; y_ribs o; y_rib o; y_anom o].
