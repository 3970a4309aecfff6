(** * M_Reading: from a configuration and the files to the input of an instance.
      The selection of input is M_Input's; here the selected input is read and handed over.

    Sources: /repo/src/ciceroscm/input_handler.py 23-105, 146-226, 461-530, 604-640, ciceroscm.py 94-140,
    concentrations_emissions_handler.py 185-198, perturbations.py 81, 127. *)
From Verif Require Import PyBase Num M_Utils M_Pams M_Gas M_Driver M_Input M_Whole M_WholeBox.

(** ** Files *)
Section Files.
Context {A : Type}.
(** A line of the gas parameter file: emission unit, and what the computations use *)
Record gasline := { gl_em_unit : string; gl_gas : gas A }.
(** An emission or concentration file (input_handler.py 98): column names as pandas makes them unique, the line of units below them, and the
    rows with their years; the two lines between units and rows are skipped. *)
Record yearfile := { yf_names : list string; yf_units : list string; yf_rows : list (Z * list A) }.
(** The files as pandas and numpy deliver them: existence; first line, numbers and table of a forcing file; gas parameter files; files of a
    single column; emission and concentration files; perturbation files; files with a row of numbers for each year. *)
Record files := {
  fs_exists : cval A -> bool; fs_first_line : cval A -> result string; fs_numbers : cval A -> result (list A);
  fs_components : cval A -> result (frame (option A)); fs_gas : cval A -> result (dict gasline); fs_column : cval A -> result (list A);
  fs_years : cval A -> result yearfile; fs_perturb : cval A -> result (ptable A); fs_rows : cval A -> result (list (list A)) }.
(** What an input is once it is in memory: read from a file, or an object in the configuration *)
Inductive thing :=
| TForc (f : rf_data A) | TGas (g : dict gasline) | TFrame (f : frame A) | TPerturb (t : ptable A) | TRows (l : list (list A)).
End Files.
Arguments gasline A : clear implicits.
Arguments yearfile A : clear implicits.
Arguments files A : clear implicits.
Arguments thing A : clear implicits.

(** python's truth value, for the values that a flag may have here *)
Definition truth (v : pyval) : bool :=
  match v with
  | VNone => false
  | VStr s => negb (String.eqb s "")
  | _ => match num_of v with Some (FFin q) => negb (Qeq_bool q 0) | _ => true end
  end.

Section Reading.
Context {A : Type} {N : Num A}.
(** NaN; the files; the objects in the configuration; directories *)
Variables (nan : A) (fs : files A) (object : pyval -> option (thing A)) (default_data_dir cwd : string).

(** The frame of labelled rows; a row that is too short is filled with NaN. *)
Definition frame_of (names : list string) (rows : list (Z * list A)) : frame A :=
  {| fr_index := map fst rows;
     fr_cols := map (fun jn => (snd jn, map (fun r => nth (fst jn) (snd r) nan) rows)) (combine (seq 0 (List.length names)) names) |}.
(** input_handler.py 98-105 *)
Definition read_years (p : cval A) (start stop : pyval) : result (frame A) :=
  do f <- fs_years fs p; do a <- int_of start; do b <- int_of stop;
  do rows <- read_inputfile true a b (yf_rows f); Ok (frame_of (yf_names f) rows).
(** a cell that is missing is NaN *)
Definition filled (f : frame (option A)) : frame A :=
  {| fr_index := fr_index f; fr_cols := map (fun cv => (fst cv, map (fun o => match o with Some x => x | None => nan end) (snd cv))) (fr_cols f) |}.

(** input_handler.py 252-271, 489-499: reading by the method of an input *)
Definition read_by (m : rmethod) (p : cval A) : result (thing A) :=
  match m with
  | MForc =>
      do line <- fs_first_line fs p;
      if is_component_file line
      then do f <- fs_components fs p; Ok (TForc (RfFrame (filled (read_forc_table f))))
      else do l <- fs_numbers fs p; Ok (TForc (RfArray l))
  | MComponents => do g <- fs_gas fs p; Ok (TGas g)
  | MNatural c => do v <- fs_column fs p; do f <- read_natural_emissions v c 1750 2500; Ok (TFrame f)
  | MInput a b => do f <- read_years p a b; Ok (TFrame f)
  | MEmissions a b =>
      do f <- read_years p a b; Ok (TFrame {| fr_index := fr_index f; fr_cols := rename_columns (fr_cols f) |})
  | MCsvNoIndex | MCsv => do t <- fs_perturb fs p; Ok (TPerturb t)
  | MYearRow a b =>
      do a <- int_of a; do b <- int_of b; do l <- fs_rows fs p; do r <- read_data_on_year_row a b l; Ok (TRows r)
  end.
(** What [get_data] returns, as a value. An entry that is no object of a kind known here is a TypeError (python goes on with it until it
    needs something of it). *)
Definition content (d : datum A) : result (thing A) :=
  match d with
  | Read m p => read_by m p
  | Given (CV v) => match object v with Some t => Ok t | None => Err TypeError end
  | Given (CZeros years cols) => Ok (TRows (map (fun _ => repeat #0%num cols) years))
  | Given (CFlat years component value) => Ok (TFrame (Build_frame years [(component, map (fun _ => value) years)]))
  end.

(** The gas table and the units, as M_Input looks at them *)
Definition gas_rows (g : dict (gasline A)) : dict (gasrow A) :=
  map (fun kl => (fst kl, {| em_unit := gl_em_unit (snd kl); conc_unit := g_unit (gl_gas (snd kl)); nat_em := g_nat (gl_gas (snd kl)) |})) g.
Definition gas_content (d : datum A) : result (dict (gasline A)) :=
  do t <- content d; match t with TGas g => Ok g | _ => Err TypeError end.
Definition gas_table (d : datum A) : result (dict (gasrow A)) := do g <- gas_content d; Ok (gas_rows g).
Definition header (p : cval A) : result (dict string) := do f <- fs_years fs p; Ok (combine (yf_names f) (yf_units f)).

(** ciceroscm.py 99-101: the input handler sees the caller's configuration with the checked values put in *)
Definition open_inputs (cfg : dict pyval) : result (hcfg A) :=
  input_init (fs_exists fs) gas_table header default_data_dir cwd (driver_caller_cfg cfg).

(** input_handler.py 461-504 *)
Definition get (h : hcfg A) (what : string) : result (thing A) := do d <- get_data h what; content d.
Definition as_forc (t : thing A) : result (rf_data A) := match t with TForc f => Ok f | _ => Err TypeError end.
Definition as_gas (t : thing A) : result (dict (gasline A)) := match t with TGas g => Ok g | _ => Err TypeError end.
Definition as_frame (t : thing A) : result (frame A) := match t with TFrame f => Ok f | _ => Err TypeError end.
Definition as_perturb (t : thing A) : result (ptable A) := match t with TPerturb p => Ok p | _ => Err TypeError end.
Definition as_rows (t : thing A) : result (list (list A)) := match t with TRows l => Ok l | _ => Err TypeError end.
(** the first column, which is what [iloc[i, 0]] looks at; a row without cells would be an IndexError only when it is looked at *)
Definition first_column (l : list (list A)) : result (list A) :=
  mapM (fun r => match r with x :: _ => Ok x | [] => Err IndexError end) l.
Definition optionally {B} (h : hcfg A) (what : string) (f : thing A -> result B) : result (option B) :=
  if optional_pam h what then do t <- get h what; do b <- f t; Ok (Some b) else Ok None.

(** concentrations_emissions_handler.py 185-198: what the handler reads *)
Definition read_handler (h : hcfg A) : result (data A) :=
  do g <- get h "gaspam"; do g <- as_gas g;
  do n1 <- get h "nat_ch4"; do n1 <- as_frame n1; do n2 <- get h "nat_n2o"; do n2 <- as_frame n2;
  do conc <- get h "concentrations"; do conc <- as_frame conc; do emis <- get h "emissions"; do emis <- as_frame emis;
  do pe <- optionally h "perturb_em" as_perturb; do pf <- optionally h "perturb_forc" as_perturb;
  Ok {| x_forc := None; x_conc_run := truth (conc_run_of h); x_gas := map (fun kl => (fst kl, gl_gas (snd kl))) g; x_nat_ch4 := n1; x_nat_n2o := n2;
        x_conc := conc; x_emis := emis; x_perturb_em := pe; x_perturb_forc := pf; x_sun := []; x_luc := []; x_vn := []; x_vs := [] |}.
(** ciceroscm.py 108: a forcing run reads nothing else *)
Definition forcing_only (f : rf_data A) : data A :=
  {| x_forc := Some f; x_conc_run := false; x_gas := []; x_nat_ch4 := Build_frame [] []; x_nat_n2o := Build_frame [] []; x_conc := Build_frame [] [];
     x_emis := Build_frame [] []; x_perturb_em := None; x_perturb_forc := None; x_sun := []; x_luc := []; x_vn := []; x_vs := [] |}.
Definition with_series (x : data A) (vn vs : list (list A)) (sun luc : list A) : data A :=
  {| x_forc := x_forc x; x_conc_run := x_conc_run x; x_gas := x_gas x; x_nat_ch4 := x_nat_ch4 x; x_nat_n2o := x_nat_n2o x; x_conc := x_conc x;
     x_emis := x_emis x; x_perturb_em := x_perturb_em x; x_perturb_forc := x_perturb_forc x; x_sun := sun; x_luc := luc; x_vn := vn; x_vs := vs |}.
(** ciceroscm.py 101-140: everything an instance reads, in that order. The computations between the readings come later here (M_Whole), so
    that a configuration with several errors may end in another one of them. *)
Definition read_data (cfg : dict pyval) : result (data A) :=
  do h <- open_inputs cfg;
  do forc <- optionally h "forc" as_forc;
  do x <- match forc with Some f => Ok (forcing_only f) | None => read_handler h end;
  do vn <- get h "rf_volc_n"; do vn <- as_rows vn; do vs <- get h "rf_volc_s"; do vs <- as_rows vs;
  do sun <- get h "rf_sun"; do sun <- as_rows sun; do sun <- first_column sun;
  do luc <- get h "rf_luc"; do luc <- as_rows luc; do luc <- first_column luc;
  Ok (with_series x vn vs sun luc).

(** ciceroscm.py 73-141: an instance from its configuration and the files *)
Variables (number : pyfloat -> A) (float_of : A -> pyfloat).
Definition construct (cfg : dict pyval) : result (model A) := model_construct number float_of read_data cfg.
End Reading.
