(** * M_Input: reading and selecting input, /repo/src/ciceroscm/input_handler.py

    Parsing of csv text is not modelled: a file is the table pandas makes of it. *)
From Verif Require Import PyBase Num M_Utils M_Gas.

(** ** Year-row files, 604-640: [rows] are the rows of the file.

    [set_axis] returns a relabelled copy that is thrown away, but it checks the number of labels. A
    file that ends before the first row wanted is an EmptyDataError, which is a ValueError. *)
Definition year_count (nystart nyend : Z) : nat := Z.to_nat (nyend + 1 - nystart).
Definition read_data_on_year_row {R} (nystart nyend : Z) (rows : list R) : result (list R) :=
  let nrows := year_count nystart nyend in
  let rest := if (1750 <? nystart)%Z then skipn (Z.to_nat (nystart - 1750)) rows else rows in
  match rest with
  | [] => Err ValueError
  | _ => let df := firstn nrows rest in
         if Nat.eqb (List.length df) nrows then Ok df else Err ValueError
  end.

(** ** 47-74: [read_natural_emissions] of a single column; a wrong number of values is a ValueError *)
Definition read_natural_emissions {A} (values : list A) (component : string) (startyear endyear : Z) : result (frame A) :=
  let years := zrange startyear (Z.to_nat (endyear + 1 - startyear)) in
  if Nat.eqb (List.length values) (List.length years)
  then Ok {| fr_index := years; fr_cols := [(component, values)] |}
  else Err ValueError.

(** ** 77-105: [read_inputfile], on the table of the file (labels and rows).

    [drop] of a label that is not in the index is a KeyError; a label that occurs drops all its rows. *)
Definition cut_years {R} (year_start year_end : Z) (df : list (Z * R)) : result (list (Z * R)) :=
  match df with
  | [] => Err IndexError
  | (min_year, _) :: _ =>
      let max_year := last (map fst df) 0%Z in
      let cut_rows := zrange min_year (Z.to_nat (year_start - min_year)) ++
                      zrange (year_end + 1) (Z.to_nat (max_year + 1 - (year_end + 1))) in
      if forallb (fun y => existsb (Z.eqb y) (map fst df)) cut_rows
      then Ok (filter (fun r => negb (existsb (Z.eqb (fst r)) cut_rows)) df)
      else Err (KeyError YEAR)
  end.
Definition read_inputfile {R} (cut : bool) (year_start year_end : Z) (df : list (Z * R)) : result (list (Z * R)) :=
  if cut then cut_years year_start year_end df else Ok df.
(** input_handler.py 526-530, [read_emissions]: the columns are renamed *)
Definition rename_emission (c : string) : string :=
  if String.eqb c "CO2" then "CO2_FF" else if String.eqb c "CO2.1" then "CO2_AFOLU" else c.
Definition rename_columns {V} (cols : dict V) : dict V := map (fun cv => (rename_emission (fst cv), snd cv)) cols.

(** ** 146-206: [read_forc]. [None] is NaN. *)
Section ReadForc.
Context {A : Type} {N : Num A}.
Local Open Scope num_scope.
(** [first_line[:4].lower() == "year"] *)
Definition lower (a : Ascii.ascii) : Ascii.ascii :=
  let n := Ascii.nat_of_ascii a in
  if Nat.leb 65 n && Nat.leb n 90 then Ascii.ascii_of_nat (n + 32) else a.
Fixpoint slower (s : string) {struct s} : string :=
  match s with EmptyString => EmptyString | String a r => String (lower a) (slower r) end.
Definition is_component_file (first_line : string) : bool := String.eqb (slower (substring 0 4 first_line)) "year".

(** [sum(axis=1)] leaves out NaN *)
Definition nan_sum (l : list (option A)) : A :=
  nsum (flat_map (fun o => match o with Some x => [x] | None => [] end) l).
(** a row of the table as its cells in the given columns *)
Definition row_cells (f : frame (option A)) (cols : list string) (i : nat) : list (option A) :=
  map (fun c => match dget (fr_cols f) c with Some l => nth i l None | None => None end) cols.
Definition row_sums (f : frame (option A)) (cols : list string) : list (option A) :=
  map (fun i => Some (nan_sum (row_cells f cols i))) (seq 0 (List.length (fr_index f))).
Definition row_abs_sum (f : frame (option A)) (cols : list string) (i : nat) : A :=
  nan_sum (map (option_map nabs) (row_cells f cols i)).
Definition fr_set (f : frame (option A)) (c : string) (v : list (option A)) : frame (option A) :=
  {| fr_index := fr_index f; fr_cols := dset (fr_cols f) c v |}.

(** input_handler.py 172-179. The mean over the rows of the two columns is a series labelled with the two column
    names; assigned as a column it is aligned to the years, which gives NaN everywhere. *)
Definition add_total (f : frame (option A)) : frame (option A) :=
  if dmem (fr_cols f) "total" then f
  else if dmem (fr_cols f) "FORC_NH" && dmem (fr_cols f) "FORC_SH"
  then fr_set f "total" (map (fun _ => None) (fr_index f))
  else
    let t := row_sums f (dkeys (fr_cols f)) in
    fr_set (fr_set (fr_set f "total" t) "FORC_NH" t) "FORC_SH" t.

(** constants.py 28-37 *)
Definition AEROSOL_TRACERS : list string := ["SO2"; "SO4_IND"; "BC"; "OC"; "NOx"; "NMVOC"; "NH3"; "BMB_AEROS"].
(** input_handler.py 187-205 *)
Definition aero_cols (cols : list string) : list string :=
  let a := filter (fun c => smem c cols) AEROSOL_TRACERS in
  a ++ filter (fun c => smem (substring 0 2 c) ["SO"; "BC"; "OC"; "BM"] && negb (smem c a)) cols.
Definition agent_cols (cols : list string) : list string :=
  filter (fun c => negb (smem c ["total"; "FORC_NH"; "FORC_SH"])) cols.
Definition add_weight (f : frame (option A)) : frame (option A) :=
  if dmem (fr_cols f) "w_aero" then f
  else
    let cols := dkeys (fr_cols f) in
    match aero_cols cols, agent_cols cols with
    | [], _ | _, [] => f
    | aero, agents =>
        fr_set f "w_aero"
          (map (fun i => let t := row_abs_sum f agents i in
                         if nltb #0 t then Some (row_abs_sum f aero i / t) else Some #0)
             (seq 0 (List.length (fr_index f))))
    end.
Definition read_forc_table (f : frame (option A)) : frame (option A) := add_weight (add_total f).
End ReadForc.

(** ** The handler *)
(** input_handler.py 252-271: the reading methods with their arguments; years are kept as given *)
Inductive rmethod :=
| MForc | MComponents | MNatural (component : string) | MInput (start stop : pyval) | MEmissions (start stop : pyval)
| MCsvNoIndex | MCsv | MYearRow (start stop : pyval).
(** input_handler.py 252-271, 296-301; [None]: no method *)
Definition read_methods (start stop : pyval) : dict rmethod :=
  [("forc", MForc); ("gaspam", MComponents); ("nat_ch4", MNatural "CH4"); ("nat_n2o", MNatural "N2O");
   ("concentrations", MInput start stop); ("emissions", MEmissions start stop); ("perturb_em", MCsvNoIndex);
   ("perturb_forc", MCsv); ("rf_luc", MYearRow start stop); ("rf_sun", MYearRow start stop);
   ("rf_volc_n", MYearRow start stop); ("rf_volc_s", MYearRow start stop)].

(** a row of the gas parameter table, as far as this file looks at it *)
Record gasrow (A : Type) := { em_unit : string; conc_unit : string; nat_em : A }.
Arguments em_unit {A}. Arguments conc_unit {A}. Arguments nat_em {A}.

Section Handler.
Context {A : Type}.
(** Values of the handler's configuration: the caller's, or frames it makes itself (zeros, a constant column) *)
Inductive cval := CV (v : pyval) | CZeros (years : list Z) (cols : nat) | CFlat (years : list Z) (component : string) (value : A).
(** What [get_data] returns: the reading method applied to a path, or the object of the configuration *)
Inductive datum := Read (m : rmethod) (path : cval) | Given (v : cval).

(** The file system and the parsed files: [exists_ p]; the gas table behind a path or object; the unit rows of the
    emission and concentration files (header names with the "Unit" line below them, which is assumed to be there). *)
Variables (exists_ : cval -> bool) (gas_table : datum -> result (dict (gasrow A)))
  (header : cval -> result (dict string)) (default_data_dir cwd : string).

(** input_handler.py 273-281 *)
Definition used_keys : dict pyval :=
  [("sunvolc", VInt 0); ("conc_run", VBool false); ("idtm", VInt 24)] ++
  flat_map (fun kv => [((fst kv ++ "_file")%string, VInt 0); ((fst kv ++ "_data")%string, VInt 0)]) (read_methods (VInt 1750) (VInt 2100)).
Definition required_keys : dict pyval :=
  [("nystart", VInt 1750); ("nyend", VInt 2100); ("emstart", VInt 1850); ("carbon_cycle_model", VStr "default");
   ("thermal_model", VStr "default")].
Definition hcfg := dict cval.
(** input_handler.py 282-295 *)
Definition initial_cfg (cfg : dict pyval) : hcfg :=
  map (fun kv => (fst kv, CV (snd kv))) (cut_and_check_pamset required_keys cfg used_keys).

Definition cv (o : option cval) : pyval := match o with Some (CV v) => v | _ => VNone end.
Definition start_of (h : hcfg) : pyval := cv (dget h "nystart").
Definition stop_of (h : hcfg) : pyval := cv (dget h "nyend").
(** an integer where numpy needs one; a float is a TypeError (370-389 would accept float years, which is not modelled) *)
Definition int_of (v : pyval) : result Z :=
  match v with VInt z | VNpInt z => Ok z | VBool b => Ok (if b then 1 else 0)%Z | _ => Err TypeError end.
Definition path (dir name : string) : cval := CV (VStr (dir ++ "/" ++ name)).

(** input_handler.py 391-441: [set_sun_volc_luc_defaults] *)
Definition set_sun_volc_luc_defaults (h : hcfg) : result hcfg :=
  let h := if negb (dmem h "rf_luc_file") && negb (dmem h "rf_luc_data")
           then dset h "rf_luc_file" (path default_data_dir "IPCC_LUCalbedo.txt") else h in
  if match dget h "sunvolc" with Some (CV v) => py_eqb v (VInt 1) | _ => false end
  then
    let h := if negb (dmem h "rf_sun_file") && negb (dmem h "rf_sun_data")
             then dset h "rf_sun_file" (path default_data_dir "solar_IPCC.txt") else h in
    Ok (if negb (existsb (dmem h) ["rf_volc_file"; "rf_volc_data"; "rf_volc_n_file"; "rf_volc_s_file"; "rf_volc_n_data"; "rf_volc_s_data"])
        then dset (dset h "rf_volc_n_file" (path default_data_dir "meanVOLCmnd_ipcc_NH.txt"))
                  "rf_volc_s_file" (path default_data_dir "meanVOLCmnd_ipcc_NH.txt")
        else match dget h "rf_volc_file" with
             | Some f => dset (dset h "rf_volc_n_file" f) "rf_volc_s_file" f
             | None => match dget h "rf_volc_data" with
                       | Some d => dset (dset h "rf_volc_n_data" d) "rf_volc_s_data" d
                       | None => h
                       end
             end)
  else
    do a <- int_of (start_of h); do b <- int_of (stop_of h);
    let years := zrange a (year_count a b) in
    Ok (dset (dset (dset h "rf_volc_n_data" (CZeros years 12)) "rf_volc_s_data" (CZeros years 12)) "rf_sun_data" (CZeros years 1)).

(** input_handler.py 461-504: [get_data] *)
Definition get_data (h : hcfg) (what : string) : result datum :=
  match dget h (what ++ "_file") with
  | Some p => match dget (read_methods (start_of h) (stop_of h)) what with
              | None => Err (KeyError (what ++ "_file"))
              | Some m => Ok (Read m p)
              end
  | None => match dget h (what ++ "_data") with
            | Some v => Ok (Given v)
            | None => Err (KeyError what)
            end
  end.
(** input_handler.py 583-602 *)
Definition optional_pam (h : hcfg) (which : string) : bool := dmem h (which ++ "_file") || dmem h (which ++ "_data").

(** input_handler.py 370-389 *)
Definition get_flat_natural_emissions (h : hcfg) (component : string) : result cval :=
  do d <- get_data h "gaspam"; do g <- gas_table d;
  do r <- key component (dget g component);
  do a <- int_of (start_of h); do b <- int_of (stop_of h);
  Ok (CFlat (zrange a (year_count a b)) component (nat_em r)).
(** input_handler.py 303-307 *)
Definition fill_natural (h : hcfg) (nat_emis component : string) : result hcfg :=
  if negb (optional_pam h nat_emis) && optional_pam h "gaspam"
  then do f <- get_flat_natural_emissions h component; Ok (dset h (nat_emis ++ "_data") f)
  else Ok h.

(** input_handler.py 134-143: [check_inputfiles]; [key[-4:] == "file"] *)
Definition is_file_key (k : string) : bool := String.eqb (substring (String.length k - 4) 4 k) "file".
Definition nat_path (c : string) : cval := CV (VStr (cwd ++ "/input_OTHER/NATEMIS/natemis_" ++ c ++ ".txt")).
Fixpoint check_inputfiles (h : hcfg) {struct h} : result hcfg :=
  match h with
  | [] => Ok []
  | (k, v) :: r =>
      do v' <- (if is_file_key k && negb (exists_ v)
                then if String.eqb k "nat_ch4_file" then Ok (nat_path "ch4")
                     else if String.eqb k "nat_n2o_file" then Ok (nat_path "n2o")
                     else Err FileNotFoundError
                else Ok v);
      do r' <- check_inputfiles r; Ok ((k, v') :: r')
  end.

(** input_handler.py 310-368: [_check_gaspam_compatibility] *)
Definition no_emissions : list string := ["LANDUSE"; "OTHER"; "SO4_IND"; "TROP_O3"; "STRAT_O3"; "STRAT_H2O"; "BMB_AEROS"].
Definition list_eqb (a b : list string) : bool := if list_eq_dec string_dec a b then true else false.
(** [header[df_gas.index].loc["Unit", :].to_list() != df_gas[unit].to_list()] *)
Definition units_differ (hd : dict string) (gas : dict (gasrow A)) (unit : gasrow A -> string) : bool :=
  negb (list_eqb (map (fun kg => match dget hd (fst kg) with Some u => u | None => EmptyString end) gas)
                 (map (fun kg => unit (snd kg)) gas)).
(** [Ok false]: no further check ([return]) *)
Definition check_emissions (h : hcfg) (gas : dict (gasrow A)) : result bool :=
  match dget h "emissions_file" with
  | None => Ok true
  | Some p =>
      do hd <- header p;
      do _ <- key "CO2.1" (dget hd "CO2.1");
      let hd := ddel hd "CO2.1" in
      if negb (forallb (fun k => dmem hd k) (dkeys gas)) then Ok false
      else if units_differ hd gas em_unit then Err ValueError else Ok true
  end.
Definition check_concentrations (h : hcfg) (gas : dict (gasrow A)) : result unit :=
  match dget h "concentrations_file" with
  | None => Ok tt
  | Some p =>
      do hd <- header p;
      let gas := filter (fun kg => dmem hd (fst kg)) gas in
      if units_differ hd gas conc_unit then Err ValueError else Ok tt
  end.
Definition check_gaspam (h : hcfg) : result unit :=
  if optional_pam h "gaspam" then
    do d <- get_data h "gaspam"; do g <- gas_table d;
    do _ <- mapM (fun k => key k (dget g k)) no_emissions;
    let g := filter (fun kg => negb (smem (fst kg) no_emissions)) g in
    do go <- check_emissions h g;
    if (go : bool) then check_concentrations h g else Ok tt
  else Ok tt.

(** input_handler.py 238-308: [__init__] *)
Definition input_init (cfg : dict pyval) : result hcfg :=
  do h <- set_sun_volc_luc_defaults (initial_cfg cfg);
  do h <- fill_natural h "nat_ch4" "CH4";
  do h <- fill_natural h "nat_n2o" "N2O";
  do h <- check_inputfiles h;
  do _ <- check_gaspam h; Ok h.

(** input_handler.py 532-547, 443-459 *)
Definition conc_run_of (h : hcfg) : pyval := match dget h "conc_run" with Some (CV v) => v | _ => VBool false end.
Definition get_rf_type (h : hcfg) : bool := dmem h "forc_file" || dmem h "forc_data".
End Handler.
Arguments cval A : clear implicits.
Arguments datum A : clear implicits.
Arguments hcfg A : clear implicits.
