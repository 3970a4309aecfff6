(** * M_Reader: reading result variables and the unit tables,
      /repo/src/ciceroscm/formattingtools/reformat_cscm_results.py,
      reformat_inputdata_to_cscm_format.py 57-135 *)
From Verif Require Import PyBase Num M_Gas M_Input M_Names M_Distro M_Carbon M_Driver.

(** reformat_cscm_results.py 11-46 *)
Definition openscm_names : dict string := [
  ("Surface Air Temperature Change", "dT_glob_air");
  ("Surface Air Ocean Blended Temperature Change", "dT_glob");
  ("Surface Air Ocean Temperature Change", "dT_glob_sea");
  ("Effective Radiative Forcing", "Total_forcing+sunvolc");
  ("Effective Radiative Forcing|Anthropogenic", "Total_forcing");
  ("Effective Radiative Forcing|Anthropogenic|Aerosol", "Aerosols");
  ("Effective Radiative Forcing|Anthropogenic|Aerosol|Aerosol-radiation Interactions", "Aerosols|Direct Effect");
  ("Effective Radiative Forcing|Anthropogenic|Aerosol|Aerosol-radiation Interactions|BC", "BC");
  ("Effective Radiative Forcing|Anthropogenic|Aerosol|Aerosol-radiation Interactions|OC", "OC");
  ("Effective Radiative Forcing|Anthropogenic|Aerosol|Aerosol-radiation Interactions|Sulfate", "SO4_DIR");
  ("Effective Radiative Forcing|Anthropogenic|Aerosol|Aerosol-cloud Interactions", "SO4_IND");
  ("Effective Radiative Forcing|Greenhouse Gases", "GHG");
  ("Effective Radiative Forcing|Anthropogenic|F-Gases", "Fgas");
  ("Effective Radiative Forcing|Anthropogenic|CO2", "CO2");
  ("Effective Radiative Forcing|Anthropogenic|CH4", "CH4");
  ("Effective Radiative Forcing|Anthropogenic|N2O", "N2O");
  ("Effective Radiative Forcing|Anthropogenic|Other|Stratospheric H2O", "STRAT_H2O");
  ("Effective Radiative Forcing|Anthropogenic|Ozone|Stratospheric Contribution", "STRAT_O3");
  ("Effective Radiative Forcing|Anthropogenic|Ozone|Tropospheric Contribution", "TROP_O3");
  ("Emissions|CO2", "CO2");
  ("Emissions|CH4", "CH4");
  ("Emissions|N2O", "N2O");
  ("Heat Uptake", "RIB_glob");
  ("Heat Content|Ocean", "OHCTOT");
  ("Heat Content|Ocean|0-700m", "OHC700");
  ("Anomalous Radiation", "anomalous_radiation");
  ("Atmospheric Concentrations|CO2", "CO2");
  ("Atmospheric Concentrations|CH4", "CH4");
  ("Atmospheric Concentrations|N2O", "N2O");
  ("Atmospheric Concentrations|Ozone|Tropospheric'", "TROP_O3") ].
(** reformat_cscm_results.py 47-93 *)
Definition forc_sums : list string := ["Aerosols"; "Aerosols|Direct Effect"].
Definition fgas_list : list string :=
  ["HFC125"; "HFC134a"; "HFC143a"; "HFC152a"; "HFC227ea"; "HFC236fa"; "HFC23"; "HFC245fa"; "HFC32"; "HFC365mfc"; "HFC4310mee";
   "NF3"; "C2F6"; "C3F8"; "C4F10"; "C5F12"; "C6F14"; "C7F16"; "C8F18"; "cC4F8"; "CF4"; "SF6"; "SO2F2"].
Definition montreal_list : list string :=
  ["CFC-11"; "CFC-12"; "CFC-113"; "CFC-114"; "CFC-115"; "CH3Br"; "CCl4"; "CH3CCl3"; "H-1202"; "H-1211"; "H-1301"; "H-2402";
   "HCFC-123"; "HCFC-142b"; "HCFC-141b"; "HCFC-22"; "CHCl3"; "CH3Cl"; "CH2Cl2"].
(** reformat_cscm_results.py 96-114 *)
Definition fgas_transform (g : string) : string :=
  if String.prefix "HFC" g then ("HFC|" ++ g)%string
  else if String.prefix "c" (slower g) then ("PFC|" ++ g)%string
  else g.
(** reformat_cscm_results.py 117-137 *)
Definition montreal_transform (g : string) : string :=
  if String.prefix "CFC" g then ("CFC|" ++ replace "-" "" g)%string
  else if String.prefix "H-" g then replace "H-" "Halon" g
  else if String.prefix "HCFC-" g then replace "HCFC-" "HCFC" g
  else g.
(** reformat_cscm_results.py 140-155: the loops filling the module's dictionary *)
Definition add_names (forc conc : string) (transform : string -> string) (gases : list string) (d : dict string) : dict string :=
  fold_left (fun d g => dset (dset d (forc ++ transform g)%string g) (conc ++ transform g)%string g) gases d.
Definition openscm_to_cscm_dict : dict string :=
  add_names "Effective Radiative Forcing|Anthropogenic|Montreal Gases|" "Atmospheric Concentrations|Montreal Gases|"
    montreal_transform montreal_list
    (add_names "Effective Radiative Forcing|Anthropogenic|F-Gases|" "Atmospheric Concentrations|F-Gases|"
       fgas_transform fgas_list openscm_names).
(** reformat_cscm_results.py 274-278: every reader writes this entry into that same dictionary *)
Definition reader_init (d : dict string) : dict string :=
  dset d "Effective Radiative Forcing|Aerosols|Direct Effect|SOx" "SO4_DIR".
Definition variable_dict : dict string := reader_init openscm_to_cscm_dict.
(** reformat_cscm_results.py 157-165 *)
Definition ghg_not_fgas : list string := ["CO2"; "CH4"; "N2O"; "TROP_O3"; "STRAT_O3"; "STRAT_H2O"].
Definition carbon_cycle_outputs : dict string :=
  [("Carbon Flux|Land", "Biosphere carbon flux"); ("Carbon Flux|Ocean", "Ocean carbon flux");
   ("Airborne fraction CO2", "Airborne fraction CO2"); ("Carbon Pool|Land", "Biosphere carbon pool");
   ("Carbon Pool|Ocean", "Ocean carbon pool"); ("Net Flux to Atmosphere|CO2", "Net flux to atmosphere")].
(** reformat_cscm_results.py 279-286 *)
Definition temp_list : list string := ["dT_glob"; "dT_glob_air"; "dT_glob_sea"; "RIB_glob"; "anomalous_radiation"].
Definition ohc_list : list string := ["OHCTOT"; "OHC700"].

(** [s.endswith(suffix)] *)
Definition endswith (suffix s : string) : bool :=
  Nat.leb (String.length suffix) (String.length s) &&
  String.eqb (sdrop (String.length s - String.length suffix) s) suffix.

(** ** The scenario writer's three lists *)
Record units := { u_components : list string; u_units : list string; u_concunits : list string }.
(** [l.insert(1, x)] *)
Definition insert1 {B} (x : B) (l : list B) : list B := firstn 1 l ++ x :: skipn 1 l.
Definition insert_landuse (u : units) : units :=
  {| u_components := insert1 "CO2_lu" (u_components u); u_units := insert1 "PgC / yr" (u_units u);
     u_concunits := insert1 "ppm" (u_concunits u) |}.
(** reformat_inputdata_to_cscm_format.py 87-103: the emission unit of a row *)
Definition row_unit (component unit : string) : string :=
  let unit :=
    if String.eqb component "N2O" && String.eqb unit "Tg_N" then "TgN2ON"
    else if contains "_" unit then replace "_" "" unit
    else (unit ++ replace "BMB_AEROS_" "" (replace "-" "" component))%string in
  (unit ++ " / yr")%string.
(** reformat_inputdata_to_cscm_format.py 83-107: the rows of the file after the header *)
Fixpoint file_rows (rows : list (list string)) {struct rows} : result (list (string * string * string)) :=
  match rows with
  | [] => Ok []
  | row :: r =>
      do unit <- iloc row 1;
      if String.eqb unit "X" then file_rows r
      else
        do component <- iloc row 0; do cu <- iloc row 2;
        do rest <- file_rows r; Ok ((component, row_unit component unit, cu) :: rest)
  end.
Definition of_rows (l : list (string * string * string)) : units :=
  {| u_components := map (fun x => fst (fst x)) l; u_units := map (fun x => snd (fst x)) l; u_concunits := map snd l |}.
(** reformat_inputdata_to_cscm_format.py 72-111, a file as the list of its split lines; the header of an empty file is a StopIteration *)
Definition units_from_file (lines : list (list string)) : result units :=
  match lines with
  | [] => Err (UserExn 1)
  | _ :: rows => do l <- file_rows rows; Ok (insert_landuse (of_rows l))
  end.
(** reformat_inputdata_to_cscm_format.py 113-135, a frame with the columns EM_UNIT and CONC_UNIT and distinct labels; [DataFrame.replace] and
    [Series.replace] act on whole cells *)
Definition whole (old new s : string) : string := if String.eqb s old then new else s.
Definition units_from_pd (gas : dict (string * string)) : result units :=
  let g := map (fun kv => (fst kv, (whole "Tg_N" "TgN2ON" (fst (snd kv)), whole "Tg_N" "TgN2ON" (snd (snd kv))))) gas in
  let g := map (fun kv => (fst kv, (fst (snd kv), whole "_" "" (snd (snd kv))))) g in
  do oc <- key "BMB_AEROS_OC" (dget g "BMB_AEROS_OC");
  let g := dset g "BMB_AEROS_OC" (replace "Tg" "TgOC" (fst oc), snd oc) in
  do bc <- key "BMB_AEROS_BC" (dget g "BMB_AEROS_BC");
  let g := dset g "BMB_AEROS_BC" (replace "Tg" "TgBC" (fst bc), snd bc) in
  Ok (insert_landuse
        {| u_components := dkeys g; u_units := map (fun kv => (fst (snd kv) ++ " / yr")%string) g;
           u_concunits := map (fun kv => snd (snd kv)) g |}).
(** [l.index(x)] *)
Fixpoint index_of (x : string) (l : list string) {struct l} : result nat :=
  match l with
  | [] => Err ValueError
  | y :: r => if String.eqb y x then Ok O else do n <- index_of x r; Ok (S n)
  end.
Definition unit_at (u : units) (l : list string) (component : string) : result string :=
  do n <- index_of component (u_components u); iloc l n.

Section Reader.
Context {A : Type} {N : Num A}.
Local Open Scope num_scope.

(** [results[k]] as a frame or an array *)
Definition frame_at (r : results A) (k : string) : result (frame A) :=
  match dget r k with Some (Fr f) => Ok f | Some (Arr _) => Err TypeError | None => Err (KeyError k) end.
Definition array_at (r : results A) (k : string) : result (list A) :=
  match dget r k with Some (Arr l) => Ok l | Some (Fr _) => Err TypeError | None => Err (KeyError k) end.

(** a number or a series added to an array; series of another length are a ValueError *)
Inductive addend := Scalar (x : A) | Series (l : list A).
Definition plus (ts : list A) (a : addend) : result (list A) :=
  match a with
  | Scalar x => Ok (map (fun t => t + x) ts)
  | Series l => if Nat.eqb (List.length l) (List.length ts) then Ok (map2 nadd ts l) else Err ValueError
  end.
(** the loops of 180-194 *)
Definition add_cols (df : frame A) (skip_missing : bool) (names : list string) (ts : list A) : result (list A) :=
  fold_left (fun acc c => do t <- acc;
      if skip_missing && negb (dmem (fr_cols df) c) then Ok t
      else do v <- fr_col df c; Ok (map2 nadd t v)) names (Ok ts).
(** reformat_cscm_results.py 168-201 *)
Definition forc_common (df : frame A) (variable : string) (v_dict : dict string) (volc sun : addend)
  : result (list A * list A) :=
  do years <- fr_col df "Year";
  let zeros := map (fun _ => #0) years in
  do ts <-
    (if smem variable forc_sums then
       add_cols df false
         (map snd (filter (fun cv => contains variable (fst cv) && negb (smem (snd cv) forc_sums)) v_dict)) zeros
     else if smem variable ["Fgas"; "GHG"] then
       do t <- add_cols df true fgas_list zeros;
       if String.eqb variable "GHG" then
         do t <- add_cols df true montreal_list t; add_cols df true ghg_not_fgas t
       else Ok t
     else if String.eqb variable "Total_forcing+sunvolc" then
       do t <- fr_col df "Total_forcing"; do t <- plus t volc; plus t sun
     else fr_col df variable);
  Ok (years, ts).

(** reformat_cscm_results.py 204-211 *)
Definition from_conc (r : results A) (variable : string) : result (list A * list A) :=
  do df <- frame_at r "concentrations"; do years <- fr_col df "Year"; do ts <- fr_col df variable; Ok (years, ts).
(** reformat_cscm_results.py 214-229 *)
Definition from_em (r : results A) (variable : string) : result (list A * list A) :=
  do df <- frame_at r "emissions"; do years <- fr_col df "Year";
  do cc <- frame_at r "carbon cycle";
  do ts <- (if dmem (fr_cols cc) "Emissions" && String.eqb variable "CO2" then fr_col cc "Emissions" else fr_col df variable);
  Ok (years, ts).
(** reformat_cscm_results.py 239-247 *)
Definition from_ohc (r : results A) (variable : string) : result (list A) :=
  do ts <- array_at r variable; Ok (map (fun t => t * #10) ts).
(** reformat_cscm_results.py 250-266 *)
Definition carbon_variable (cc : frame A) (variable : string) : result (list A * string) :=
  if endswith "flux" variable then do ts <- fr_col cc variable; Ok (ts, "Pg C / yr")
  else if endswith "pool" variable then do ts <- fr_col cc (replace "pool" "flux" variable); Ok (cumsum ts, "Pg C")
  else if String.eqb variable "Net flux to atmosphere" then
    do b <- fr_col cc "Biosphere carbon flux"; do o <- fr_col cc "Ocean carbon flux";
    Ok (map2 (fun b o => - b - o) b o, "Pg C / yr")
  else do ts <- fr_col cc variable; Ok (ts, "Unitless").

(** constants.py: OCEAN_AREA, SEC_DAY, DAY_YEAR *)
Definition OCEAN_AREA : A := nofZ (361 * 10 ^ 12).
Definition rib_to_zj (x : A) : A := x * OCEAN_AREA * #86400 * #365 / nofZ (10 ^ 21).

Section Instance.
(** [CSCMREADER(nystart, nyend)] *)
Variables (nystart nyend : Z).
Definition indices : list A := map (fun y => nofZ y) (zrange nystart (Z.to_nat (nyend + 1 - nystart))).

(** reformat_cscm_results.py 357-373: a series of another length than the window is a ValueError *)
Definition on_indices (l : list A) : result (list A) :=
  if Nat.eqb (List.length l) (List.length indices) then Ok l else Err ValueError.
Definition volc_forcing (r : results A) : result (list A) :=
  do n <- array_at r "Volcanic_forcing_NH"; do s <- array_at r "Volcanic_forcing_SH";
  if Nat.eqb (List.length n) (List.length s) then on_indices (map2 (fun n s => (n + s) / #2) n s) else Err ValueError.
Definition sun_forcing (r : results A) : result (list A) := do s <- array_at r "Solar_forcing"; on_indices s.
(** reformat_cscm_results.py 375-389 *)
Definition from_forc (r : results A) (variable : string) : result (list A * list A) :=
  do df <- frame_at r "forcing";
  if String.eqb variable "Total_forcing+sunvolc" then
    do v <- volc_forcing r; do s <- sun_forcing r; forc_common df variable variable_dict (Series v) (Series s)
  else forc_common df variable variable_dict (Scalar #0) (Scalar #0).

(** reformat_cscm_results.py 289-355: years, series and unit *)
Definition get_variable_timeseries (r : results A) (variable : string) (u : units) : result (list A * list A * string) :=
  let nothing := ([], [], "NoUnit") in
  let name := dget variable_dict variable in
  if contains "Concentration" variable then
    match name with
    | None => Ok nothing
    | Some n => do q <- from_conc r n; do unit <- unit_at u (u_concunits u) n; Ok (q, unit)
    end
  else if contains "Emissions" variable then
    match name with
    | None => Ok nothing
    | Some n => do q <- from_em r n; do unit <- unit_at u (u_units u) n; Ok (q, unit)
    end
  else if contains "Forcing" variable then
    match name with
    | None => Ok nothing
    | Some n => do q <- from_forc r n; Ok (q, "W/m^2")
    end
  else
    match dget carbon_cycle_outputs variable with
    | Some c =>
        match dget r "carbon cycle" with
        | None => Ok nothing
        | Some _ => do cc <- frame_at r "carbon cycle"; do q <- carbon_variable cc c; Ok ((indices, fst q), snd q)
        end
    | None =>
        match name with
        | None => Ok nothing
        | Some n =>
            if smem n temp_list then
              do ts <- array_at r n;
              if String.eqb n "RIB_glob" then Ok ((indices, map rib_to_zj ts), "ZJ / yr") else Ok ((indices, ts), "K")
            else if smem n ohc_list then do ts <- from_ohc r n; Ok ((indices, ts), "ZJ")
            else Ok nothing
        end
    end.
End Instance.
End Reader.
Arguments addend A : clear implicits.
