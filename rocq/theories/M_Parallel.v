(** * M_Parallel: runs over many scenarios and configurations.

    Sources under /repo/src/ciceroscm/parallel: _parallel_process.py 45-194, cscmparwrapper.py 27-232.
    Log messages and progress bars are left out. *)
From Verif Require Import PyBase M_Utils M_Pams Num M_Gas.

(** ** _parallel_process.py *)
Section Process.
Context {C R : Type}.
(** The job: [func true a] is [func( **a)], [func false a] is [func(a)]. *)
Variable func : bool -> C -> result R.

(** 45-57: [_run_serial] *)
Definition run_serial (kwargs : bool) (configs : list C) : result (list R) := mapM (func kwargs) configs.

(** What is collected for one future: its result, or (88-90) the exception as a value. *)
Inductive item := Value (r : R) | Raised (e : exn).

(** 73-83: the futures in the order of completion; the first failed one ends the call. *)
Fixpoint await (futures : list (result R)) (order : list nat) {struct order} : result unit :=
  match order with
  | [] => Ok tt
  | i :: r => match nth_error futures i with Some (Err e) => Err e | _ => await futures r end
  end.
Definition collect (f : result R) : item := match f with Ok r => Value r | Err e => Raised e end.

(** 60-93: [_run_parallel]. [order] lists the positions of the jobs in the order in which they complete; it
    is an input because it depends on the machine. [timeout] is None in the package and left out. *)
Definition run_parallel (kwargs : bool) (order : list nat) (configs : list C) : result (list item) :=
  let futures := map (func kwargs) configs in
  do _ <- await futures order;
  Ok (map collect futures).

(** 96-194: [_parallel_process]. [pool] is None or the two completion orders (front jobs, the rest). Front
    sizes are natural numbers here. *)
Definition parallel_process (configuration : list C) (pool : option (list nat * list nat)) (kwargs : bool)
  (front_serial front_parallel : nat) : result (list item) :=
  do front_serial_res <- (if (0 <? front_serial)%nat then run_serial kwargs (firstn front_serial configuration) else Ok []);
  match pool with
  | None =>
      do rest <- run_serial kwargs (skipn front_serial configuration);
      Ok (map Value (rest ++ front_serial_res))
  | Some (order1, order2) =>
      do front_parallel_res <-
        (if (0 <? front_parallel)%nat
         then run_parallel kwargs order1 (firstn front_parallel (skipn front_serial configuration)) else Ok []);
      do rest <- run_parallel kwargs order2 (skipn (front_serial + front_parallel) configuration);
      Ok (map Value front_serial_res ++ front_parallel_res ++ rest)
  end.
End Process.
Arguments item : clear implicits.

(** ** cscmparwrapper.py 62-125: [run_ciceroscm_parallel] *)
Section Runs.
Context {S C F : Type}.
Record job := { j_cfgs : list C; j_vars : list string; j_scen : S }.

(** 90: [[cfgs[i : i + b] for i in range(0, len(cfgs), b)]]; a step of zero is a ValueError *)
Definition batches (cfgs : list C) (b : nat) : result (list (list C)) :=
  if (b =? 0)%nat then Err ValueError
  else Ok (map (fun k => firstn b (skipn (k * b) cfgs)) (seq 0 ((List.length cfgs + b - 1) / b))).

(** 79-92: the list [runs] *)
Definition work_list (scendata : list S) (cfgs : list C) (vars : list string) (max_workers : Z) : result (list job) :=
  let ns := Z.of_nat (List.length scendata) in
  let nc := Z.of_nat (List.length cfgs) in
  if ((max_workers <=? ns) || (nc * ns <? max_workers))%Z%bool
  then Ok (map (fun scen => {| j_cfgs := cfgs; j_vars := vars; j_scen := scen |}) scendata)
  else
    let batch_size := Z.to_nat (nc * ns / max_workers) in
    do bs <- batches cfgs batch_size;
    Ok (flat_map (fun scen => map (fun cfgset => {| j_cfgs := cfgset; j_vars := vars; j_scen := scen |}) bs) scendata).

(** [pd.concat]: concatenating nothing is a ValueError, an object that is no frame a TypeError *)
Definition pd_concat {B} (l : list (list B)) : result (list B) :=
  match l with [] => Err ValueError | _ => Ok (List.concat l) end.
Definition frame_of {B} (i : item B) : result B := match i with Value r => Ok r | Raised _ => Err TypeError end.

Definition FRONT_SERIAL : nat := 0.
Definition FRONT_PARALLEL : nat := 0.

(** 93-125. A frame is the list of its rows. A pool of less than one worker is a ValueError. *)
Definition run_ciceroscm_parallel (execute : job -> result (list F)) (orders : list nat * list nat)
  (scendata : list S) (cfgs : list C) (vars : list string) (max_workers : Z) : result (list F) :=
  do runs <- work_list scendata cfgs vars max_workers;
  if (max_workers =? 1)%Z then
    do result <- mapM execute runs;
    pd_concat result
  else if (max_workers <=? 0)%Z then Err ValueError
  else
    do result <- parallel_process (fun _ => execute) runs (Some orders) true FRONT_SERIAL FRONT_PARALLEL;
    do frames <- mapM frame_of result;
    pd_concat frames.
End Runs.
Arguments job : clear implicits.

(** ** cscmparwrapper.py 27-59 and 128-232: one job *)
(** A configuration as far as [run_over_cfgs] reads it: the values of [.get] and of ["Index"]. *)
Record config := {
  cf_udm : option (dict pyval); cf_emiconc : option (dict pyval); cf_carbon : option (dict pyval);
  cf_index : option pyval }.

(** Labels and cells of a result row *)
Inductive label := Name (s : string) | Year (y : Z).
Inductive cell (V : Type) := Text (v : pyval) | Number (v : V).
Arguments Text {V} v.
Arguments Number {V} v.

Section Wrapper.
Context {V W I : Type}.
(** [CICEROSCM(scenariodata)], [COMMONSFILEWRITER(gaspam, nystart, nyend)], [self.cscm._run(..)] with the three
    parameter sets, and [get_variable_timeseries] on the results of the instance; its years are None when it
    returned an empty frame. *)
Variable construct : dict pyval -> result I.
Variable writer : pyval -> pyval -> pyval -> result W.
Variable cscm_run : I -> option (dict pyval) -> option (dict pyval) -> option (dict pyval) -> result I.
Variable timeseries : pyval -> pyval -> I -> string -> W -> result (option (list Z) * list V * string).

Record wrapper := { w_getter : W; w_start : pyval; w_end : pyval; w_cscm : I; w_scen : pyval; w_model : pyval }.

Definition item_of (d : dict pyval) (k : string) : result pyval :=
  match dget d k with Some v => Ok v | None => Err (KeyError k) end.

(** 133-162 *)
Definition wrapper_init (scenariodata : dict pyval) : result wrapper :=
  do nystart <- item_of scenariodata "nystart";
  do nyend <- item_of scenariodata "nyend";
  do gaspam <- (if dmem scenariodata "gaspam_file" then item_of scenariodata "gaspam_file"
                else item_of scenariodata "gaspam_data");
  do getter <- writer gaspam nystart nyend;
  do cscm <- construct scenariodata;
  do scen <- item_of scenariodata "scenname";
  Ok {| w_getter := getter; w_start := nystart; w_end := nyend; w_cscm := cscm; w_scen := scen; w_model := scen |}.

(** 207-231: one row; data and labels of different length are a ValueError *)
Definition make_row (w : wrapper) (index : pyval) (variable unit : string) (years : list Z) (series : list V)
  : result (list (label * cell V)) :=
  let data := [Text (VStr "CICERO-SCM-PY"); Text (w_model w); Text index; Text (w_scen w); Text (VStr "World");
               Text (VStr variable); Text (VStr unit)] ++ map Number series in
  let labels := [Name "climate_model"; Name "model"; Name "run_id"; Name "scenario"; Name "region";
                 Name "variable"; Name "unit"] ++ map Year years in
  if Nat.eqb (List.length data) (List.length labels) then Ok (combine labels data) else Err ValueError.

(** 198-231: the loop over variables *)
Fixpoint variable_rows (w : wrapper) (index : option pyval) (variables : list string) {struct variables}
  : result (list (list (label * cell V))) :=
  match variables with
  | [] => Ok []
  | variable :: r =>
      do yts <- timeseries (w_start w) (w_end w) (w_cscm w) variable (w_getter w);
      let '(years, series, unit) := yts in
      match years with
      | None => variable_rows w index r
      | Some ys =>
          if String.eqb unit "NoUnit" then variable_rows w index r
          else match index with
               | None => Err (KeyError "Index")
               | Some ix =>
                   do row <- make_row w ix variable unit ys series;
                   do rows <- variable_rows w index r;
                   Ok (row :: rows)
               end
      end
  end.

(** 190-231: the loop over configurations; the instance is kept from one to the next *)
Definition with_cscm (w : wrapper) (i : I) : wrapper :=
  {| w_getter := w_getter w; w_start := w_start w; w_end := w_end w; w_cscm := i; w_scen := w_scen w; w_model := w_model w |}.
Fixpoint cfg_rows (w : wrapper) (cfgs : list config) (variables : list string) {struct cfgs}
  : result (list (list (label * cell V))) :=
  match cfgs with
  | [] => Ok []
  | pamset :: r =>
      do i <- cscm_run (w_cscm w) (cf_udm pamset) (cf_emiconc pamset) (cf_carbon pamset);
      let w' := with_cscm w i in
      do rows <- variable_rows w' (cf_index pamset) variables;
      do rest <- cfg_rows w' r variables;
      Ok (rows ++ rest)
  end.
(** 164-232: [run_over_cfgs]; the last line concatenates the rows, and nothing to concatenate is a ValueError *)
Definition run_over_cfgs (w : wrapper) (cfgs : list config) (variables : list string)
  : result (list (list (label * cell V))) :=
  do rows <- cfg_rows w cfgs variables;
  match rows with [] => Err ValueError | _ => Ok rows end.

(** 27-59: [_execute_run] *)
Definition window_default : dict pyval := [("nystart", VInt 1750); ("nyend", VInt 2100); ("emstart", VInt 1850)].
Definition execute_run (j : job (dict pyval) config) : result (list (list (label * cell V))) :=
  do w <- wrapper_init (check_numeric_pamset window_default (j_scen j));
  run_over_cfgs w (j_cfgs j) (j_vars j).
End Wrapper.
Arguments wrapper : clear implicits.

(** ** The instance a job works on, as far as its parameters go: a forcing run does not touch handler and
    carbon cycle (ciceroscm.py 275-276), other runs reset both (concentrations_emissions_handler.py 359-366). *)
Record instance := {
  in_env : handler_env; in_rf_run : bool; in_pams : dict pyval; in_carbon : carbon_state;
  in_udm : option (dict pyval) }.
Definition instance_run (i : instance) (udm emiconc carbon : option (dict pyval)) : result instance :=
  if in_rf_run i
  then Ok {| in_env := in_env i; in_rf_run := true; in_pams := in_pams i; in_carbon := in_carbon i; in_udm := udm |}
  else
    do p <- handler_rerun (in_env i) (in_pams i) emiconc;
    do c <- carbon_reset (in_carbon i) carbon;
    Ok {| in_env := in_env i; in_rf_run := false; in_pams := p; in_carbon := c; in_udm := udm |}.
