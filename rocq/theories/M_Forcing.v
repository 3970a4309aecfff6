(** * M_Forcing: forcing of the handler,
      /repo/src/ciceroscm/concentrations_emissions_handler.py 413-726,
      perturbations.py 9-57, 138-207, and the yearly loop of ciceroscm.py 281-297 *)
From Verif Require Import PyBase Num M_Gas.

Fixpoint set_nth {B} (n : nat) (v : B) (l : list B) {struct l} : list B :=
  match l, n with
  | [], _ => []
  | _ :: r, O => v :: r
  | x :: r, S m => x :: set_nth m v r
  end.

Section Forcing.
Context {A : Type} {N : Num A}.
Local Open Scope num_scope.

(** perturbations.py 9-57 *)
Definition aerosol_split : list string :=
  ["SO2"; "SO4_IND"; "BC"; "OC"; "BMB_AEROS"; "BMB_AEROS_OC"; "BMB_AEROS_BC"].
Definition hemispheric (t : string) (q nh sh : A) : A * A :=
  if smem t aerosol_split then (nh + q * dec 147 2, sh + q * (#2 - dec 147 2))
  else if String.eqb t "TROP_O3" then (nh + q * dec 145 2, sh + q * (#2 - dec 145 2))
  else if String.eqb t "LANDUSE" then (nh + q * dec 142 2, sh + q * (#2 - dec 142 2))
  else (nh + q, sh + q).

(** concentrations_emissions_handler.py 457-484 (Etminan coefficients), without the factor SARF_TO_ERF *)
Definition rf_co2 (c0_co2 c_co2 c0_n2o c_n2o : A) : A :=
  (- dec 24 8 * npown (c_co2 - c0_co2) 2 + dec 72 5 * nabs (c_co2 - c0_co2)
   + - dec 21 5 * dec 5 1 * (c0_n2o + c_n2o) + dec 536 2) * nln (c_co2 / c0_co2).
Definition rf_n2o (c0_co2 c_co2 c0_n2o c_n2o c0_ch4 c_ch4 : A) : A :=
  (- dec 80 7 * dec 5 1 * (c_co2 + c0_co2) + dec 42 7 * dec 5 1 * (c_n2o + c0_n2o)
   + - dec 49 7 * dec 5 1 * (c_ch4 + c0_ch4) + dec 117 3) * (nsqrt c_n2o - nsqrt c0_n2o).
Definition rf_ch4 (c0_n2o c_n2o c0_ch4 c_ch4 : A) : A :=
  (- dec 13 7 * dec 5 1 * (c_ch4 + c0_ch4) + - dec 82 7 * dec 5 1 * (c_n2o + c0_n2o) + dec 43 3)
  * (nsqrt c_ch4 - nsqrt c0_ch4).

Section Model.
Variables (p : hpam A) (conc_in emis erf : frame A).

(** [self.forc[t][yr - yr_0]] and its assignment *)
Definition forc_ix (y : Z) : nat := Z.to_nat (y - nystart p).
Definition forc_get (st : hst A) (t : string) (y : Z) : result A :=
  do v <- key t (dget (s_forc st) t);
  match nth_error v (forc_ix y) with Some x => Ok x | None => Err IndexError end.
Definition forc_set (st : hst A) (t : string) (y : Z) (q : A) : result (hst A) :=
  do v <- key t (dget (s_forc st) t);
  if Nat.ltb (forc_ix y) (List.length v)
  then Ok (set_forc st (dset (s_forc st) t (set_nth (forc_ix y) q v))) else Err IndexError.

Definition sarf (st : hst A) (t : string) : result A :=
  do g <- key t (dget (s_gas st) t); Ok (g_sarf g).

(** concentrations_emissions_handler.py 413-492 *)
Definition forc_three_main (y : Z) (st : hst A) : result (A * A * A * hst A) :=
  do c0_n2o <- conc_get st "N2O" (nystart p); do c_n2o <- conc_get st "N2O" y;
  do c0_co2 <- conc_get st "CO2" (nystart p); do c_co2 <- conc_get st "CO2" y;
  do c0_ch4 <- conc_get st "CH4" (nystart p); do c_ch4 <- conc_get st "CH4" y;
  do f_co2 <- sarf st "CO2"; do f_n2o <- sarf st "N2O"; do f_ch4 <- sarf st "CH4";
  let q_co2 := f_co2 * rf_co2 c0_co2 c_co2 c0_n2o c_n2o in
  let q_n2o := f_n2o * rf_n2o c0_co2 c_co2 c0_n2o c_n2o c0_ch4 c_ch4 in
  let q_ch4 := f_ch4 * rf_ch4 c0_n2o c_n2o c0_ch4 c_ch4 in
  do st <- forc_set st "CO2" y q_co2; do st <- forc_set st "CH4" y q_ch4; do st <- forc_set st "N2O" y q_n2o;
  let tot := q_co2 + q_n2o + q_ch4 in
  let h := hemispheric "three_main" tot #0 #0 in
  Ok (tot, fst h, snd h, st).

(** concentrations_emissions_handler.py 494-538: also stores the ozone concentration *)
Definition trop_o3_conc (st : hst A) (y : Z) : result A :=
  do ch4 <- conc_get st "CH4" y; do ch4r <- fr_get conc_in "CH4" (ref_yr p);
  do nox <- fr_get emis "NOx" y; do noxr <- fr_get emis "NOx" (ref_yr p);
  do co <- fr_get emis "CO" y; do cor <- fr_get emis "CO" (ref_yr p);
  do voc <- fr_get emis "NMVOC" y; do vocr <- fr_get emis "NMVOC" (ref_yr p);
  Ok (#30 + dec 67 1 * (nln ch4 - nln ch4r) + dec 17 2 * (nox - noxr) + dec 14 4 * (co - cor) + dec 42 4 * (voc - vocr)).
Definition trop_o3_from (value value_0 : A) : A :=
  if neqb value_0 #30 then #0 else (value - value_0) / (#30 - value_0) * qo3 p.
Definition tropospheric_ozone (y : Z) (st : hst A) : result (A * hst A) :=
  do c <- trop_o3_conc st y;
  do st <- conc_set st "TROP_O3" y c;
  do value <- conc_get st "TROP_O3" y; do value_0 <- conc_get st "TROP_O3" (nystart p);
  Ok (trop_o3_from value value_0, st).

(** concentrations_emissions_handler.py 555-564 *)
Definition ref_emission_species : dict (string * A) :=
  [ ("SO2", ("SO2", qdirso2 p)); ("SO4_IND", ("SO2", qindso2 p)); ("OC", ("OC", qoc p)); ("BC", ("BC", qbc p));
    ("BMB_AEROS", ("BMB_AEROS_OC", qbmb p)); ("NMVOC", ("NMVOC", qnmvoc p)); ("NH3", ("NH3", qnh3 p));
    ("NOx", ("NOx", qnox p)) ].
(** concentrations_emissions_handler.py 540-593 *)
Definition aerosol_forcing (st : hst A) (y : Z) (t : string) : result A :=
  do g <- key t (dget (s_gas st) t);
  if negb (neqb (g_alpha g) #0) then
    do e <- fr_get emis t y; do e0 <- fr_get emis t (nystart p); Ok ((e - e0) * g_alpha g)
  else
    match dget ref_emission_species t with
    | Some (r, f) => do e <- fr_get emis r y; do e0 <- fr_get emis r (nystart p); Ok (f * (e - e0))
    | None => Ok #0
    end.

(** concentrations_emissions_handler.py 642-652: which components count as aerosols *)
Definition is_aerosol (t : string) : bool :=
  smem t ["NMVOC"; "NH3"; "NOx"] || smem (String.substring 0 2 t) ["BC"; "OC"; "SO"; "BM"].

(** concentrations_emissions_handler.py 637-681: forcing of one component *)
Definition component (y : Z) (rf_luc : A) (t : string) (st : hst A) : result (A * hst A) :=
  if String.eqb t "LANDUSE" then Ok (rf_luc, st)
  else if is_aerosol t then do q <- aerosol_forcing st y t; Ok (q, st)
  else if match dget (s_gas st) t with Some g => negb (neqb (g_alpha g) #0) | None => false end then
    do g <- key t (dget (s_gas st) t);
    do c <- conc_get st t y; do c0 <- conc_get st t (nystart p);
    Ok ((c - c0) * g_alpha g * g_sarf g, st)
  else if String.eqb t "TROP_O3" then
    do r <- tropospheric_ozone y st; do f <- sarf st t; Ok (fst r * f, snd r)
  else if String.eqb t "STRAT_H2O" then
    do m <- forc_get st "CH4" y; do f <- sarf st t; Ok (qh2o_ch4 p * m * f, st)
  else Ok (#0, st).

(** The loop's running values: total, northern, southern, magnitude of aerosol forcing *)
Record run4 := { r_tot : A; r_nh : A; r_sh : A; r_aero : A; r_st : hst A }.
(** concentrations_emissions_handler.py 634-690: one turn *)
Definition tracer_turn (y : Z) (rf_luc : A) (acc : result run4) (t : string) : result run4 :=
  do a <- acc;
  if smem t ["CO2"; "N2O"; "CH4"] then Ok a
  else
    do qs <- component y rf_luc t (r_st a);
    let q := fst qs in
    let aero := if negb (String.eqb t "LANDUSE") && is_aerosol t then r_aero a + nabs q else r_aero a in
    do st <- forc_set (snd qs) t y q;
    let h := hemispheric t q (r_nh a) (r_sh a) in
    Ok {| r_tot := r_tot a + q; r_nh := fst h; r_sh := snd h; r_aero := aero; r_st := st |}.

(** perturbations.py 168-207: the rows of the year, in order; unknown components are skipped *)
Definition pert_turn (y : Z) (acc : result run4) (row : Z * string * A) : result run4 :=
  do a <- acc;
  let '(_, t, v) := row in
  if dmem (s_forc (r_st a)) t then
    do old <- forc_get (r_st a) t y;
    do st <- forc_set (r_st a) t y (old + v);
    let h := hemispheric t v (r_nh a) (r_sh a) in
    Ok {| r_tot := r_tot a + v; r_nh := fst h; r_sh := snd h; r_aero := r_aero a; r_st := st |}
  else Ok a.
Definition add_forcing_pert (pt : ptable A) (y : Z) (a : run4) : result run4 :=
  fold_left (pert_turn y) (filter (fun r => Z.eqb (fst (fst r)) y) pt) (Ok a).

(** concentrations_emissions_handler.py 720-724: sum of the magnitudes of [self.forc] at the year *)
Definition abs_total (y : Z) (st : hst A) : result A :=
  fold_left (fun acc kv => do s <- acc;
     if String.eqb (fst kv) "Total_forcing" then Ok s
     else do x <- match nth_error (snd kv) (forc_ix y) with Some x => Ok x | None => Err IndexError end; Ok (s + nabs x))
    (s_forc st) (Ok #0).

(** concentrations_emissions_handler.py 595-726: total, northern, southern forcing, aerosol weight. The membership test of 700-704
    ([check_if_year_in_pert]) only skips an empty loop. *)
Definition conc2forc (pert : option (ptable A)) (y : Z) (rf_luc rf_sun : A) (st : hst A)
  : result ((A * A * A * A) * hst A) :=
  do m <- forc_three_main y st;
  let '(tot, nh, sh, st) := m in
  do a <- fold_left (tracer_turn y rf_luc) (dkeys (s_forc st))
            (Ok {| r_tot := tot; r_nh := nh; r_sh := sh; r_aero := #0; r_st := st |});
  do pre <- tot_vanilla erf y;
  let a := {| r_tot := r_tot a + pre; r_nh := r_nh a + pre; r_sh := r_sh a + pre; r_aero := r_aero a; r_st := r_st a |} in
  do a <- match pert with None => Ok a | Some pt => add_forcing_pert pt y a end;
  do a <- match just_one p with
          | None => Ok a
          | Some j =>
              do t <- forc_get (r_st a) j y;
              let h := hemispheric j t #0 #0 in
              Ok {| r_tot := t; r_nh := fst h; r_sh := snd h; r_aero := r_aero a; r_st := r_st a |}
          end;
  do st <- forc_set (r_st a) "Total_forcing" y (r_tot a);
  do s <- abs_total y st;
  let w := if nltb #0 s then r_aero a / s else #0 in
  Ok ((r_tot a, r_nh a + rf_sun, r_sh a + rf_sun, w), st).
End Model.

(** ciceroscm.py 281-297 for emission and concentration runs: [emi2conc] then [conc2forc] for each year; the
    feedback argument and the land-use and solar forcing of the year are given by [fb], [luc], [sun]. *)
Section Years.
Variables (S Fb : Type) (co2em2conc : S -> Z -> A -> Fb -> S * A).
Variables (p : hpam A) (conc_in emis nat_ch4 nat_n2o erf : frame A) (pert : option (ptable A)).
Definition handler_year (y : Z) (fb : Fb) (luc sun : A) (cc : S) (st : hst A)
  : result ((A * A * A * A) * (S * hst A)) :=
  do a <- emi2conc S Fb co2em2conc p conc_in emis nat_ch4 nat_n2o y fb cc st;
  do r <- conc2forc p conc_in emis erf pert y luc sun (snd a);
  Ok (fst r, (fst a, snd r)).
End Years.
End Forcing.
Arguments run4 A : clear implicits.
