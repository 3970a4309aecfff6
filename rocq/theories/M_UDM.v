(** * M_UDM: /repo/src/ciceroscm/thermal_model/upwelling_diffusion_model.py *)
From Coq Require Import ZArith List Bool.
From Verif Require Import Num M_TwoLayer.
Import ListNotations.

Section UDM.
Context {A : Type} {N : Num A}.
Local Open Scope num_scope.

(** The completed parameter set (upwelling_diffusion_model.py 111-132, completed by
    [cut_and_check_pamset]). [lm] and [ldtime] are python ints used as array size and loop
    count; a float there makes numpy / [range] raise. *)
Record ud_pam := {
  rlamdo : A; akapa : A; cpi : A; W : A; beto : A; threstemp : A; lambda : A;
  mixed : A; foan : A; foas : A; ebbeta : A; lm : nat; ldtime : nat;
  efficacy : A; delta_aero : A }.

(** upwelling_diffusion_model.py 111-132 *)
Definition ud_default : ud_pam :=
  {| rlamdo := #15; akapa := dec 66 2; cpi := dec 21 2; W := dec 22 1; beto := dec 69 1;
     threstemp := #7; lambda := dec 61 2; mixed := #107; foan := dec 61 2; foas := dec 81 2;
     ebbeta := #0; lm := 40; ldtime := 12; efficacy := #1; delta_aero := #0 |}.

Section Derived.
Variable p : ud_pam.

(** upwelling_diffusion_model.py 58 *)
Definition rakapa : A := dec 1 4 * akapa p.
(** upwelling_diffusion_model.py 60 *)
Definition dt : A := #1 / nofZ (Z.of_nat (ldtime p)) * SEC_DAY * DAY_YEAR.
(** upwelling_diffusion_model.py 61-64: rho 1.03, htcpty 0.955, cnvrt 0.485 *)
Definition c1 : A := dec 103 2 * dec 955 3 * dec 485 3 * #100 * SEC_DAY.
(** upwelling_diffusion_model.py 71 *)
Definition fnso : A := foan p / foas p.
(** upwelling_diffusion_model.py 65-70 and 205-214 *)
Definition fnx_of (rlamda : A) : A := rlamda + foan p * rlamdo p + ebbeta p.
Definition fsx_of (rlamda : A) : A := rlamda + foas p * rlamdo p + ebbeta p.

(** upwelling_diffusion_model.py 166-167 *)
Definition dz (i : nat) : A := match i with O => mixed p | S _ => #100 end.

(** upwelling_diffusion_model.py 302-398, coefficients "varrying", per-sub-step part *)
Record v2 := {
  acoefn : list A; bcoefn : list A; ccoefn : list A;
  acoefs : list A; bcoefs : list A; ccoefs : list A;
  dtrm1n : A; dtmnl2 : A; dtrm1s : A; dtmsl2 : A }.

(** upwelling_diffusion_model.py 400-455, per-feedback part *)
Record v1 := {
  dtrm2n : A; dtrm3n : A; dtrm4n : A; dtrm2s : A; dtrm3s : A; dtrm4s : A;
  dtmnl3 : A; dtmnl1 : A; dtmsl3 : A; dtmsl1 : A }.

(** upwelling_diffusion_model.py 239-256: [get_gam_and_fro_factor_ns];
    [gam1], [fro1] are the own hemisphere's, [gam2] the other's. *)
Definition gam_fro (gam1 gam2 fro1 : A) : A :=
  let blm := ebbeta p / rlamdo p in
  rlamdo p * (#1 - fro1 * gam2 / (gam2 * gam1 - blm * blm)) * dt / (c1 * dz 0).

(** upwelling_diffusion_model.py 279-300: [coeff]; [x[i]] outside the assigned ranges stays 0. *)
Definition rakapafac : A := #2 * rakapa * dt.
Definition coef_a (wcfac : A) (i : nat) : A :=
  if Nat.eqb i 0 then - rakapafac / (dz 1 * dz 1) + wcfac / dz 1
  else if Nat.ltb i (lm p - 1) then - rakapafac / (dz (i + 1) * (dz i + dz (i + 1)))
  else #0.
Definition coef_c (wcfac : A) (i : nat) : A :=
  if Nat.eqb i 0 then #0
  else if Nat.eqb i 1 then - rakapafac / (dz 0 * (#0 * dz 0 + dz 1))
  else - rakapafac / (dz (i - 1) * (dz (i - 1) + dz i)) - wcfac / dz (i - 1).
Definition coef_b (wcfac gam_fro_fac : A) (i : nat) : A :=
  if Nat.eqb i 0 then #1 - coef_c wcfac 1 + gam_fro_fac - wcfac / dz 0
  else if Nat.ltb i (lm p - 1) then #1 - coef_a wcfac (i - 1) - coef_c wcfac (i + 1)
  else #1 - coef_a wcfac (lm p - 2) + wcfac / dz (lm p - 1).

(** upwelling_diffusion_model.py 318-329 / 358-366: the efficacy scaling of row 0 *)
Definition eff_c (cp : nat -> A) (i : nat) : A :=
  if neqb (efficacy p) #1 then cp i else if Nat.eqb i 1 then cp 1%nat * efficacy p else cp i.
Definition eff_b (bp cp : nat -> A) (i : nat) : A :=
  if neqb (efficacy p) #1 then bp i
  else if Nat.eqb i 0 then bp 0%nat + cp 1%nat - cp 1%nat * efficacy p else bp i.

(** upwelling_diffusion_model.py 306-315 / 345-353 *)
Definition wcfac_of (temp_1 : A) : A :=
  if neqb (threstemp p) #0 then W p / (SEC_DAY * DAY_YEAR) * dt
  else W p / (SEC_DAY * DAY_YEAR) * (#1 - dec 3 1 * temp_1 / threstemp p) * dt.

(** upwelling_diffusion_model.py 302-398: [setup_ebud2] *)
Definition setup_ebud2 (gamn gams temp_1n temp_1s : A) : v2 :=
  let wn := wcfac_of temp_1n in
  let gn := gam_fro gamn gams (foan p) in
  let ws := wcfac_of temp_1s in
  let gs := gam_fro gams gamn (foas p) in
  {| acoefn := tab (lm p) (coef_a wn);
     bcoefn := tab (lm p) (eff_b (coef_b wn gn) (coef_c wn));
     ccoefn := tab (lm p) (eff_c (coef_c wn));
     dtrm1n := #1 - cpi p * wn / dz 0 - beto p * dt / (c1 * dz 0);
     dtmnl2 := wn * cpi p / dz (lm p - 1);
     acoefs := tab (lm p) (coef_a ws);
     bcoefs := tab (lm p) (eff_b (coef_b ws gs) (coef_c ws));
     ccoefs := tab (lm p) (eff_c (coef_c ws));
     dtrm1s := #1 - cpi p * ws / dz 0 - fnso * beto p * dt / (c1 * dz 0);
     dtmsl2 := ws * cpi p / dz (lm p - 1) |}.

(** upwelling_diffusion_model.py 410-420 *)
Definition gamn_of (rlamda : A) : A := foan p + rlamda / rlamdo p + ebbeta p / rlamdo p.
Definition gams_of (rlamda : A) : A := foas p + rlamda / rlamdo p + #1 * (ebbeta p / rlamdo p).

(** upwelling_diffusion_model.py 400-455: [setup_ebud], coefficients ([fnsa] = 1.0) *)
Definition setup_ebud1 (gamn gams : A) : v1 :=
  let fnsa := #1 in
  let c1fac := dt / (c1 * dz 0) in
  let blm := ebbeta p / rlamdo p in
  let det := gams * gamn - fnsa * (blm * blm) in
  let nl3 := dt * beto p / (c1 * dz (lm p - 1)) in
  {| dtrm2n := (beto p + foas p * ebbeta p / det) * c1fac;
     dtrm3n := gams / det * c1fac;
     dtrm4n := blm / det * c1fac;
     dtrm2s := (fnso * beto p + foan p * fnsa * ebbeta p / det) * c1fac;
     dtrm3s := gamn / det * c1fac;
     dtrm4s := fnsa * blm / det * c1fac;
     dtmnl3 := nl3; dtmnl1 := #1 - nl3;
     dtmsl3 := fnso * nl3; dtmsl1 := #1 - fnso * nl3 |}.

(** The mutable attributes. *)
Record ud_state := {
  u_tn : list A; u_ts : list A; u_pfn : A; u_pfs : A;
  u_rlamda : A; u_fnx : A; u_fsx : A; u_gamn : A; u_gams : A; u_v1 : v1; u_v2 : v2 }.

(** upwelling_diffusion_model.py 400-455 as a state transformer after setting rlamda, fnx, fsx;
    ends with [setup_ebud2(0, 0)]. *)
Definition with_feedback (s : ud_state) (rl : A) : ud_state :=
  let gn := gamn_of rl in let gs := gams_of rl in
  {| u_tn := u_tn s; u_ts := u_ts s; u_pfn := u_pfn s; u_pfs := u_pfs s;
     u_rlamda := rl; u_fnx := fnx_of rl; u_fsx := fsx_of rl; u_gamn := gn; u_gams := gs;
     u_v1 := setup_ebud1 gn gs; u_v2 := setup_ebud2 gn gs #0 #0 |}.

(** upwelling_diffusion_model.py 151-182: constructor *)
Definition ud_init : ud_state :=
  let rl := #1 / lambda p in
  let gn := gamn_of rl in let gs := gams_of rl in
  {| u_tn := tab (lm p) (fun _ => #0); u_ts := tab (lm p) (fun _ => #0); u_pfn := #0; u_pfs := #0;
     u_rlamda := rl; u_fnx := fnx_of rl; u_fsx := fsx_of rl; u_gamn := gn; u_gams := gs;
     u_v1 := setup_ebud1 gn gs; u_v2 := setup_ebud2 gn gs #0 #0 |}.

(** upwelling_diffusion_model.py 195-220: [set_feedback_gregory] *)
Definition ud_set_feedback (s : ud_state) (w_aero : A) : ud_state :=
  if neqb (delta_aero p) #0 then s
  else with_feedback s (#1 / lambda p + w_aero * delta_aero p).

(** [solve_banded((1,1), [c, b, a], d)]: row [i] of the system is
    [a[i-1] x[i-1] + b[i] x[i] + c[i+1] x[i+1] = d[i]]. scipy solves it by LU with pivoting;
    here the Thomas algorithm, shown in P_UDM to compute the only solution. *)
Record row := { r_l : A; r_b : A; r_u : A; r_d : A }.

Fixpoint thomas (cp dp : A) (rows : list row) {struct rows} : list A :=
  match rows with
  | [] => []
  | r :: rest =>
      let m := r_b r - r_l r * cp in
      let c' := r_u r / m in
      let d' := (r_d r - r_l r * dp) / m in
      let xs := thomas c' d' rest in
      match xs with
      | [] => [d']
      | x1 :: _ => (d' - c' * x1) :: xs
      end
  end.

Definition band_rows (a b c d : list A) : list row :=
  tab (length d) (fun i => {| r_l := match i with O => #0 | S j => nth j a #0 end;
                              r_b := nth i b #0; r_u := nth (i + 1) c #0; r_d := nth i d #0 |}).

(** upwelling_diffusion_model.py 17-37: [_band] *)
Definition band (a b c d : list A) : list A := thomas #0 #0 (band_rows a b c d).

(** upwelling_diffusion_model.py 525-531 *)
Definition ramp (im : nat) (forc prev : A) : A :=
  let dtyear := #1 / nofZ (Z.of_nat (ldtime p)) in
  let k := nofZ (Z.of_nat (im + 1)) in
  k * forc * dtyear + (#1 - k * dtyear) * prev.

(** upwelling_diffusion_model.py 517-531: [dqn], [dqs] *)
Definition dq (im : nat) (forc prev : A) (volc : list A) (volc_idx : nat) : A :=
  ramp im forc prev + nth volc_idx volc #0.

(** upwelling_diffusion_model.py 532-569: the right-hand sides [dn], [ds] *)
Definition rhs_n (w1 : v1) (w2 : v2) (tn ts : list A) (dqn dqs : A) : list A :=
  tab (lm p) (fun i =>
    if Nat.eqb i 0 then
      dtrm1n w2 * nth 0 tn #0 + dtrm2n w1 * nth 0 ts #0 + dtrm3n w1 * dqn + dtrm4n w1 * dqs
    else if Nat.ltb i (lm p - 1) then
      nth i tn #0 + beto p * dt / (c1 * dz i) * (nth i ts #0 - nth i tn #0)
    else
      dtmnl1 w1 * nth (lm p - 1) tn #0 + dtmnl2 w2 * nth 0 tn #0 + dtmnl3 w1 * nth (lm p - 1) ts #0).
Definition rhs_s (w1 : v1) (w2 : v2) (tn ts : list A) (dqn dqs : A) : list A :=
  tab (lm p) (fun i =>
    if Nat.eqb i 0 then
      dtrm1s w2 * nth 0 ts #0 + dtrm2s w1 * nth 0 tn #0 + dtrm3s w1 * dqs + dtrm4s w1 * dqn
    else if Nat.ltb i (lm p - 1) then
      nth i ts #0 + fnso * beto p * dt / (c1 * dz i) * (nth i tn #0 - nth i ts #0)
    else
      dtmsl1 w1 * nth (lm p - 1) ts #0 + dtmsl2 w2 * nth 0 ts #0 + dtmsl3 w1 * nth (lm p - 1) tn #0).

(** upwelling_diffusion_model.py 592-611: air temperature of a hemisphere; [fo1], [fx1], [dq1],
    [t1] its own ocean fraction, coefficient, forcing and sea temperature. *)
Definition air (fo1 fx1 dq1 t1 fo2 fx2 dq2 t2 : A) : A :=
  (dq1 + fo1 * rlamdo p * t1 + ebbeta p * (dq2 + fo2 * rlamdo p * t2) / fx2)
  / (fx1 - ebbeta p * ebbeta p / fx2).

(** Local variables of the sub-step loop. [templ] (lines 585-587) is never read and is omitted. *)
Record acc := {
  x_tn : list A; x_ts : list A; x_v2 : v2; x_t1n : A; x_t1s : A;
  x_tempn : A; x_temps : A; x_an : A; x_as : A; x_sn : A; x_ss : A }.

(** upwelling_diffusion_model.py 516-628: body of the sub-step loop.
    [fs_volc] is indexed with [len(fn_volc)] too. *)
Definition substep (s : ud_state) (forc_nh forc_sh : A) (fn_volc fs_volc : list A)
  (x : acc) (im : nat) : acc :=
  let volc_idx := Nat.modulo im (length fn_volc) in
  let w2 := if neqb (threstemp p) #0 then x_v2 x
            else setup_ebud2 (u_gamn s) (u_gams s) (x_t1n x) (x_t1s x) in
  let dqn := dq im forc_nh (u_pfn s) fn_volc volc_idx in
  let dqs := dq im forc_sh (u_pfs s) fs_volc volc_idx in
  let dn := rhs_n (u_v1 s) w2 (x_tn x) (x_ts x) dqn dqs in
  let ds := rhs_s (u_v1 s) w2 (x_tn x) (x_ts x) dqn dqs in
  let tn := band (acoefn w2) (bcoefn w2) (ccoefn w2) dn in
  let ts := band (acoefs w2) (bcoefs w2) (ccoefs w2) ds in
  let t1n := nth 0 tn #0 in
  let t1s := nth 0 ts #0 in
  let tempan := air (foan p) (u_fnx s) dqn t1n (foas p) (u_fsx s) dqs t1s in
  let tempas := air (foas p) (u_fsx s) dqs t1s (foan p) (u_fnx s) dqn t1n in
  let tmpn := foan p * t1n + (#1 - foan p) * tempan in
  let tmps := foas p * t1s + (#1 - foas p) * tempas in
  let l := nofZ (Z.of_nat (ldtime p)) in
  {| x_tn := tn; x_ts := ts; x_v2 := w2; x_t1n := t1n; x_t1s := t1s;
     x_tempn := x_tempn x + tmpn / l; x_temps := x_temps x + tmps / l;
     x_an := x_an x + tempan / l; x_as := x_as x + tempas / l;
     x_sn := x_sn x + t1n / l; x_ss := x_ss x + t1s / l |}.

(** upwelling_diffusion_model.py 664-713; the profile is summed from layer 1 *)
Definition anomalous_radiation (tn ts tn0 ts0 : list A) : A :=
  let prof := tab (lm p) (fun i =>
     WATER_HEAT_CAPACITY * WATER_DENSITY * dz i *
     ((nth i tn #0 - nth i tn0 #0) * foan p + (nth i ts #0 - nth i ts0 #0) * foas p)) in
  (efficacy p - #1) * (nsum (tl prof) / (DAY_YEAR * SEC_DAY)).

(** python list indexing / slicing with a possibly negative bound *)
Definition pyget {B} (l : list B) (i : Z) : option B :=
  if (0 <=? i)%Z then nth_error l (Z.to_nat i)
  else if (0 <=? Z.of_nat (length l) + i)%Z then nth_error l (Z.to_nat (Z.of_nat (length l) + i))
  else None.
Definition pyupto {B} (l : list B) (i : Z) : list B :=
  if (0 <=? i)%Z then firstn (Z.to_nat i) l
  else firstn (Z.to_nat (Z.of_nat (length l) + i)) l.

(** upwelling_diffusion_model.py 715-747: [ocean_temperature]; None = IndexError *)
Definition havtemp (tn ts : list A) : list A :=
  tab (lm p) (fun i => #1030 * dec 3997 22 * nofZ (255 * 10 ^ 12) * dz i *
                       (nth i tn #0 * foan p + nth i ts #0 * foas p)).
Definition ohctot (tn ts : list A) : A := nsum (havtemp tn ts).
Definition ohc700 (tn ts : list A) : option A :=
  let fl := nfloor (dz 0 / #100) in
  let max_layer := (7 - fl)%Z in
  let frac := (#1 + nofZ fl) - dz 0 / #100 in
  match pyget (havtemp tn ts) max_layer with
  | Some h => Some (nsum (pyupto (havtemp tn ts) max_layer) + frac * h)
  | None => None
  end.

(** the returned dictionary, upwelling_diffusion_model.py 655-662 *)
Record ud_out := {
  y_dtemp : A; y_nh : A; y_sh : A; y_tn : list A; y_ts : list A;
  y_air : A; y_air_n : A; y_air_s : A; y_sea : A; y_sea_n : A; y_sea_s : A;
  y_ribn : A; y_ribs : A; y_rib : A; y_ohc700 : option A; y_ohctot : A; y_anom : A }.

(** local variables at the start of the year, upwelling_diffusion_model.py 497-514 *)
Definition acc0 (s : ud_state) : acc :=
  {| x_tn := u_tn s; x_ts := u_ts s; x_v2 := u_v2 s; x_t1n := #0; x_t1s := #0;
     x_tempn := #0; x_temps := #0; x_an := #0; x_as := #0; x_sn := #0; x_ss := #0 |}.

(** the sub-step loop, [for im in range(ldtime)] *)
Definition year_acc (s : ud_state) (forc_nh forc_sh : A) (fn_volc fs_volc : list A) (n : nat) : acc :=
  fold_left (substep s forc_nh forc_sh fn_volc fs_volc) (seq 0 n) (acc0 s).

(** upwelling_diffusion_model.py 457-662: [energy_budget] *)
Definition ud_energy_budget (s : ud_state) (forc_nh forc_sh : A) (fn_volc fs_volc : list A)
  : ud_state * ud_out :=
  let x := year_acc s forc_nh forc_sh fn_volc fs_volc (ldtime p) in
  let dtemp := (x_tempn x + x_temps x) / #2 in
  let anom := anomalous_radiation (x_tn x) (x_ts x) (u_tn s) (u_ts s) in
  let ribn := forc_nh + nmean fn_volc - u_rlamda s * x_tempn x - anom in
  let ribs := forc_sh + nmean fs_volc - u_rlamda s * x_temps x - anom in
  ({| u_tn := x_tn x; u_ts := x_ts x; u_pfn := forc_nh; u_pfs := forc_sh;
      u_rlamda := u_rlamda s; u_fnx := u_fnx s; u_fsx := u_fsx s; u_gamn := u_gamn s; u_gams := u_gams s;
      u_v1 := u_v1 s; u_v2 := x_v2 x |},
   {| y_dtemp := dtemp; y_nh := x_tempn x; y_sh := x_temps x; y_tn := x_tn x; y_ts := x_ts x;
      y_air := (x_an x + x_as x) / #2; y_air_n := x_an x; y_air_s := x_as x;
      y_sea := (x_sn x + x_ss x) / #2; y_sea_n := x_sn x; y_sea_s := x_ss x;
      y_ribn := ribn; y_ribs := ribs; y_rib := (ribn + ribs) / #2;
      y_ohc700 := ohc700 (x_tn x) (x_ts x); y_ohctot := ohctot (x_tn x) (x_ts x); y_anom := anom |}).

(** one driver year: [set_feedback_gregory(w)] then [energy_budget], ciceroscm.py 293-301 *)
Definition ud_year (s : ud_state) (i : tl_in A) : ud_state * ud_out :=
  ud_energy_budget (ud_set_feedback s (i_w i)) (i_nh i) (i_sh i) (i_vn i) (i_vs i).

Fixpoint ud_run (s : ud_state) (ins : list (tl_in A)) {struct ins} : list ud_out :=
  match ins with
  | [] => []
  | i :: r => let '(s', o) := ud_year s i in o :: ud_run s' r
  end.
End Derived.
End UDM.
Arguments ud_pam A : clear implicits.
Arguments ud_state A : clear implicits.
Arguments ud_out A : clear implicits.
Arguments v1 A : clear implicits.
Arguments v2 A : clear implicits.
Arguments acc A : clear implicits.
Arguments row A : clear implicits.
