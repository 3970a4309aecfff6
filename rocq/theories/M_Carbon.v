(** * M_Carbon: /repo/src/ciceroscm/carbon_cycle/carbon_cycle_mod.py (default carbon cycle),
      common_carbon_cycle_functions.py 9-57 *)
From Coq Require Import ZArith List Bool.
From Verif Require Import Num.
Import ListNotations.

Section Carbon.
Context {A : Type} {N : Num A}.
Local Open Scope num_scope.

(** common_carbon_cycle_functions.py 9-22 *)
Definition CC_OCEAN_AREA : A := nofZ (362 * 10 ^ 12).
Definition GE_COEFF : A := #1 / (CC_OCEAN_AREA * dec 906 2).
Definition PPMKG_TO_UMOL_PER_VOL : A := nofZ (1722 * 10 ^ 14).
Definition PPM_CO2_TO_PG_C : A := dec 2123 3.

(** common_carbon_cycle_functions.py 25-57: [calculate_airborne_fraction]; None = all NaN *)
Fixpoint cumsum_from (acc : A) (l : list A) {struct l} : list A :=
  match l with [] => [] | x :: r => (acc + x) :: cumsum_from (acc + x) r end.
(** numpy starts with the first element itself *)
Definition cumsum (l : list A) : list A :=
  match l with [] => [] | x :: r => x :: cumsum_from x r end.
Definition airborne_fraction (em conc : list A) (preind : A) : option (list A) :=
  let cum := cumsum em in
  if existsb (fun c => neqb c #0) cum then None
  else Some (map2 (fun c e => (c - preind) / e * PPM_CO2_TO_PG_C) conc cum).

(** carbon_cycle_mod.py 34-53, 56-77 *)
Definition sigmoid_gen (x center width : A) : A := #1 / (#1 + nexp (- ((x - center) / width))).
Definition threshold_gen (x half width : A) : A := #1 - #1 / (#1 + nexp (- ((x - half) / width))).

(** The numeric parameters (carbon_cycle_mod.py 80-94), the window and the precalculated decay
    functions [r_functions[0, :]], [r_functions[1, :]] (278-324, see M_RFuns). *)
Record cc_pam := {
  beta_f : A; mixed_carbon : A; ml_w_sigmoid : A; ml_fracmax : A; ml_t_half : A; t_half : A;
  w_sigmoid : A; t_threshold : A; w_threshold : A; solubility_sens : A; solubility_limit : A;
  ml_depth_min : A; preind : A; idtm : nat; years_tot : nat; r_s : list A; r_b : list A }.

(** [co2_hold] and [temp_feedbacks] *)
Record cc_state := {
  h_y : A; h_x : A; h_s : list A; h_emp : A; h_d : list A; h_ss1 : A; h_sums : A;
  h_sol : A; h_ml : A }.

Section Model.
Variable p : cc_pam.

(** carbon_cycle_mod.py 191-199 (reset) and 171-174 *)
Definition cc_zeros : list A := tab (idtm p * years_tot p) (fun _ => #0).
Definition cc_init : cc_state :=
  {| h_y := #0; h_x := preind p; h_s := cc_zeros; h_emp := #0; h_d := cc_zeros; h_ss1 := #0; h_sums := #0;
     h_sol := #1; h_ml := mixed_carbon p |}.
Definition cc_reset (h : cc_state) : cc_state :=
  {| h_y := #0; h_x := preind p; h_s := cc_zeros; h_emp := #0; h_d := cc_zeros; h_ss1 := #0; h_sums := #0;
     h_sol := h_sol h; h_ml := h_ml h |}.

(** carbon_cycle_mod.py 258-276: the scalars that are saved ([xco2], [yco2], [emco2_prev], [ss1], [sums]) *)
Record cc_hold := { d_y : A; d_x : A; d_emp : A; d_ss1 : A; d_sums : A }.
Definition get_hold (h : cc_state) : cc_hold :=
  {| d_y := h_y h; d_x := h_x h; d_emp := h_emp h; d_ss1 := h_ss1 h; d_sums := h_sums h |}.
(** carbon_cycle_mod.py 222-256, called with all keys *)
Definition set_hold (h : cc_state) (d : cc_hold) : cc_state :=
  {| h_y := d_y d; h_x := d_x d; h_s := h_s h; h_emp := d_emp d; h_d := h_d h; h_ss1 := d_ss1 d;
     h_sums := d_sums d; h_sol := h_sol h; h_ml := h_ml h |}.

(** carbon_cycle_mod.py 349-376 *)
Definition fnpp_from_temp (dtemp : A) : A :=
  let sg x := sigmoid_gen x (t_half p) (w_sigmoid p) in
  let th x := threshold_gen x (t_threshold p) (w_threshold p) in
  let baseline := #60 / (sg #0 * th #0) in
  baseline * sg dtemp * th dtemp.

(** numpy clip: minimum(maximum(x, lo), hi) *)
Definition nclip (x lo hi : A) : A := nmin (nmax x lo) hi.
(** carbon_cycle_mod.py 378-402 *)
Definition solubility_temp_feedback (dtemp : A) : A :=
  nclip (nexp (- solubility_sens p * dtemp)) #0 (#1 + solubility_limit p).
(** carbon_cycle_mod.py 404-425 *)
Definition mixed_layer_temp_feedback (dtemp : A) : A :=
  let sg x := sigmoid_gen x (ml_t_half p) (ml_w_sigmoid p) in
  let mixed_layer_temp := #1 - ml_fracmax p * sg dtemp in
  let baseline := #1 - ml_fracmax p * sg #0 in
  nmax (mixed_carbon p * mixed_layer_temp / baseline) (ml_depth_min p).

(** carbon_cycle_mod.py 98-119 *)
Definition Z_CO2_MAX : A := dec 2935 1.
Definition pco2_poly (z : A) : A :=
  dec 13021 4 * z + dec 37929 7 * (z * z) + dec 91193 10 * (z * z * z)
  + dec 1488 11 * (z * z * z * z) + dec 12425 14 * (z * z * z * z * z).
Definition PCO2_AT_MAX : A := pco2_poly Z_CO2_MAX.
Definition DPCO2_DZ_AT_MAX : A :=
  let m := Z_CO2_MAX in
  dec 13021 4 + #2 * dec 37929 7 * m + #3 * dec 91193 10 * (m * m)
  + #4 * dec 1488 11 * (m * m * m) + #5 * dec 12425 14 * (m * m * m * m).

(** carbon_cycle_mod.py 472-486, without the solubility factor *)
Definition pco2_ocean (z : A) : A :=
  if nleb z Z_CO2_MAX then pco2_poly z
  else PCO2_AT_MAX + DPCO2_DZ_AT_MAX * Z_CO2_MAX * nln (z / Z_CO2_MAX).

(** [np.einsum("i,i->", a, b)] *)
Definition dot (a b : list A) : A := nsum (map2 nmul a b).
Definition cc_dt : A := #1 / nofZ (Z.of_nat (idtm p)).

(** carbon_cycle_mod.py 441-450: [sCO2[:it-1] . flip(r_functions[0, 1:it])] *)
Definition sumz (s : list A) (it : nat) : A :=
  if Nat.eqb it 0 then #0 else dot (firstn (it - 1) s) (rev (firstn (it - 1) (tl (r_s p)))).
(** carbon_cycle_mod.py 452-460 *)
Definition z_co2 (s : list A) (ml : A) (it : nat) : A :=
  PPMKG_TO_UMOL_PER_VOL * GE_COEFF * cc_dt / ml * (sumz s it + dec 5 1 * nth it s #0).
(** carbon_cycle_mod.py 427-486 *)
Definition partial_pressure (h : cc_state) (it : nat) : A :=
  h_sol h * pco2_ocean (z_co2 (h_s h) (h_ml h) it).

(** array item assignment; out of range (where numpy raises IndexError) nothing changes *)
Fixpoint upd {B} (l : list B) (i : nat) (v : B) {struct l} : list B :=
  match l, i with
  | [], _ => []
  | _ :: r, O => v :: r
  | x :: r, S j => x :: upd r j v
  end.

(** carbon_cycle_mod.py 543-552: [dfnpp[1:it] . flip(r_functions[1, :it-1])], 0 at step 0 *)
Definition sumf (d : list A) (it : nat) : A :=
  if Nat.eqb it 0 then #0 else dot (firstn (it - 1) (tl d)) (rev (firstn (it - 1) (r_b p))).

Definition k_gas : A := CC_OCEAN_AREA * GE_COEFF.
(** carbon_cycle_mod.py 523 *)
Definition cc1 : A := cc_dt * CC_OCEAN_AREA * GE_COEFF / (#1 + cc_dt * CC_OCEAN_AREA * GE_COEFF / #2).

(** carbon_cycle_mod.py 527-598: one sub-yearly step *)
Definition cc_step (fnpp em : A) (h : cc_state) (it : nat) : cc_state :=
  let d := if Nat.eqb it 0 then h_d h
           else upd (h_d h) it (fnpp * beta_f p * nln (h_x h / preind p)) in
  let ffer := nth it d #0 - cc_dt * sumf d it in
  let em_co2 := (em - ffer) / PPM_CO2_TO_PG_C in
  let ss1 := if Nat.eqb it 0 then dec 5 1 * em_co2 / k_gas else h_ss1 h in
  let ss2 := if Nat.eqb it 0 then ss1
             else dec 5 1 * em_co2 / k_gas - h_y h / (cc_dt * CC_OCEAN_AREA * GE_COEFF) in
  let sums := if Nat.eqb it 0 then #0
              else h_sums h + h_emp h / k_gas - nth (it - 1) (h_s h) #0 in
  let s := upd (h_s h) it (cc1 * (sums + ss1 + ss2)) in
  let h1 := {| h_y := h_y h; h_x := h_x h; h_s := s; h_emp := em_co2; h_d := d; h_ss1 := ss1; h_sums := sums;
               h_sol := h_sol h; h_ml := h_ml h |} in
  let y := partial_pressure h1 it in
  let x := nth it s #0 + dec 5 1 * y + dec 5 1 * h_y h + preind p in
  {| h_y := y; h_x := x; h_s := s; h_emp := em_co2; h_d := d; h_ss1 := ss1; h_sums := sums;
     h_sol := h_sol h; h_ml := h_ml h |}.

(** carbon_cycle_mod.py 326-347 *)
Definition update_temp_feedbacks (h : cc_state) (dtemp : A) : cc_state :=
  {| h_y := h_y h; h_x := h_x h; h_s := h_s h; h_emp := h_emp h; h_d := h_d h; h_ss1 := h_ss1 h;
     h_sums := h_sums h; h_sol := solubility_temp_feedback dtemp; h_ml := mixed_layer_temp_feedback dtemp |}.

(** carbon_cycle_mod.py 488-599: [co2em2conc] for year index [yr - nystart]; [dtemp] is 0 when no
    feedback is given. Years outside the window (IndexError) are not covered. *)
Definition co2em2conc (h : cc_state) (yr_ix : nat) (em dtemp : A) : cc_state * A :=
  let fnpp := fnpp_from_temp dtemp in
  let h' := fold_left (cc_step fnpp em) (seq (yr_ix * idtm p) (idtm p)) (update_temp_feedbacks h dtemp) in
  (h', h_x h').

(** A run over consecutive years from year [yr_ix]; each year has emissions and warming. *)
Fixpoint cc_run (h : cc_state) (yr_ix : nat) (ins : list (A * A)) {struct ins} : cc_state * list A :=
  match ins with
  | [] => (h, [])
  | (em, dtemp) :: r =>
      let '(h1, c) := co2em2conc h yr_ix em dtemp in
      let '(h2, cs) := cc_run h1 (S yr_ix) r in
      (h2, c :: cs)
  end.

(** carbon_cycle_mod.py 601-659, not [conc_run]: from the stored [dfnpp] *)
Definition ffer_series (d : list A) : list A :=
  tab (length d) (fun it => nth it d #0 - cc_dt * sumf d it).
(** carbon_cycle_mod.py 601-659, [conc_run] with a concentration series *)
Definition repeat_each {B} (n : nat) (l : list B) : list B := flat_map (fun x => repeat x n) l.
Definition dfnpp_of_conc (conc dtemp : list A) : list A :=
  map2 nmul
    (repeat_each (idtm p) (map (fun c => beta_f p * nln (c / preind p)) conc))
    (repeat_each (idtm p) (map fnpp_from_temp dtemp)).
Definition ffer_series_conc (conc dtemp : list A) : list A := ffer_series (dfnpp_of_conc conc dtemp).

(** carbon_cycle_mod.py 661-706: yearly sums of the given sub-yearly series over [years_tot] years *)
Definition year_slice (l : list A) (y : nat) : list A := firstn (idtm p) (skipn (idtm p * y) l).
Definition biosphere_flux (ffer : list A) : list A :=
  tab (years_tot p) (fun y => nsum (year_slice ffer y) / nofZ (Z.of_nat (idtm p))).
(** carbon_cycle_mod.py 708-753 (without the optional back-calculation) *)
Definition ocean_flux (h : cc_state) : list A :=
  tab (years_tot p) (fun y =>
    nsum (year_slice (h_s h) y) * PPM_CO2_TO_PG_C / nofZ (Z.of_nat (idtm p)) * GE_COEFF * CC_OCEAN_AREA).
End Model.
End Carbon.
Arguments cc_pam A : clear implicits.
Arguments cc_state A : clear implicits.
Arguments cc_hold A : clear implicits.
