(** * Properties_DistroRun: rows of a job, and runs over a distribution of configurations (C107, C108) *)
From Coq Require Import QArith Sorted.
From Verif Require Import PyBase PyBaseFacts Num M_Utils M_Flat M_Pams M_Gas M_Names M_Reader M_Parallel M_Distro M_DistroRun M_Whole M_WholeBox
  Spec_Pams Spec_Parallel Spec_Distro Spec_Reader Spec_Numbers Spec_WholeBox Spec_DistroRun P_DistroRun Properties_Whole Properties_Distro.
Local Open Scope nat_scope.
Local Open Scope list_scope.

(** ** C107 *)
(** A job that completes: the runs were made one after the other on one instance of the scenario; each variable of each run has one row, in order of the
    configurations and then of the variables, with the labels and the series of this variable after this run. There is no row for an unknown variable, and
    there is at least one row. Missing or unusable years of the scenario are 1750, 2100 and 1850. *)
Theorem C107_rows : forall (A : Type) (N : Num A) nan number float_of label_of inputs writer j rows,
  model_execute nan number float_of label_of inputs writer j = Ok rows ->
  let scen := check_numeric_pamset [("nystart", VInt 1750); ("nyend", VInt 2100); ("emstart", VInt 1850)] (j_scen j) in
  exists st en gas name g m0 ms, dget scen "nystart" = Some st /\ dget scen "nyend" = Some en /\
    (dget scen "gaspam_file" = Some gas \/ (dget scen "gaspam_file" = None /\ dget scen "gaspam_data" = Some gas)) /\ dget scen "scenname" = Some name /\
    writer gas st en = Ok g /\ model_construct number float_of inputs scen = Ok m0 /\ one_after_the_other (model_run nan number) m0 (j_cfgs j) ms /\
    rows_of_job (model_timeseries (A := A) label_of) st en name g (j_vars j) (j_cfgs j) ms rows /\ rows <> [].
Proof. intros A N nan number float_of label_of inputs writer. exact (c107 _ _ _ _). Qed.
Print Assumptions C107_rows.
(** The series of a temperature: the years of the scenario and the numbers of the run. *)
Theorem C107_temperatures : forall (A : Type) (N : Num A) label_of first last (m : model A) v g u ys ts unit, In (v, g) temperature_variables ->
  model_timeseries label_of (VInt first) (VInt last) m v u = Ok (ys, ts, unit) <->
  ys = Some (map label_of (window first last)) /\ in_array (model_results m) g ts /\ unit = "K".
Proof. exact @c107_temperatures. Qed.
Print Assumptions C107_temperatures.

Definition dx_execute := model_execute (N := QNum) (- 999)%Q wx_number FFin Qnum (fun _ => Ok (wx_data None)) wx_writer.
Definition dx_numbers (r : result (list (list (label * cell Q)))) : list (list Q) :=
  match r with Ok rows => map (flat_map (fun x => match snd x with Number q => [Qred q] | Text _ => [] end)) rows | Err _ => [] end.
Definition dx_texts (r : result (list (list (label * cell Q)))) : list (list pyval) :=
  match r with Ok rows => map (flat_map (fun x => match snd x with Number _ => [] | Text v => [v] end)) rows | Err _ => [] end.
Definition dx_job (cfgs : list config) (vars : list string) := dx_execute {| j_cfgs := cfgs; j_vars := vars; j_scen := wx_scen |}.
(** Two configurations and three variables, one of them unknown: four rows. *)
Example C107_example :
  let r := dx_job wx_uniform ["Surface Air Ocean Blended Temperature Change"; "Sea Level"; "Atmospheric Concentrations|CO2"] in
  let row id v u := [VStr "CICERO-SCM-PY"; VStr "A"; VStr id; VStr "A"; VStr "World"; VStr v; VStr u] in
  dx_texts r = [row "0" "Surface Air Ocean Blended Temperature Change" "K"; row "0" "Atmospheric Concentrations|CO2" "ppm";
                row "1" "Surface Air Ocean Blended Temperature Change" "K"; row "1" "Atmospheric Concentrations|CO2" "ppm"] /\
  map (@List.length Q) (dx_numbers r) = [2; 2; 2; 2] /\ nth 1 (dx_numbers r) [] <> nth 3 (dx_numbers r) [] /\
  nth 0 (dx_numbers r) [] <> nth 1 (dx_numbers r) [] /\ dx_job wx_uniform ["Sea Level"] = Err ValueError.
Proof. vm_compute. repeat split; discriminate. Qed.

(** ** C108 *)
(** Configurations made from one distribution, also after writing them to a file and reading them back, do not rely on each other, unless
    the preindustrial concentration is sampled or fixed. *)
Theorem C108_independent : forall (A : Type) (N : Num A) (as_float : A -> pyval), (forall v, is_num (as_float v) = true) ->
  forall prior values o_forc o_method d points n file pre made written cfgs,
  wf (the_prior prior) -> distro_init prior values o_forc o_method = Ok d ->
  ~ In "preindustrial_co2_conc" (dkeys (the_prior prior)) -> ~ In "preindustrial_co2_conc" (dkeys (the_values values)) ->
  make_config_lists as_float d points n file pre None = Ok (Flat made, written) -> cfgs = made \/ cfgs = map config_as_read made ->
  (forall i, self_contained i cfgs) /\ box_contained (A := A) cfgs.
Proof. exact @c108_contained. Qed.
Print Assumptions C108_independent.
(** Hence a run over a distribution gives the rows of the configurations run one by one on new instances: for any number of workers, any
    order of completion, one scenario or many, either carbon cycle. *)
Theorem C108_workers : forall (A : Type) (N : Num A) (as_float : A -> pyval), (forall v, is_num (as_float v) = true) ->
  forall nan number float_of label_of inputs writer rows orders scens vars mw prior values o_forc o_method d points n file pre made written cfgs,
  wf (the_prior prior) -> distro_init prior values o_forc o_method = Ok d ->
  ~ In "preindustrial_co2_conc" (dkeys (the_prior prior)) -> ~ In "preindustrial_co2_conc" (dkeys (the_values values)) ->
  make_config_lists as_float d points n file pre None = Ok (Flat made, written) -> cfgs = made \/ cfgs = map config_as_read made ->
  scen_list scens <> [] -> cfgs <> [] -> (1 <= mw)%Z -> (forall s, In s (scen_list scens) -> wf s) ->
  (forall s c, In s (scen_list scens) -> In c cfgs ->
     model_execute nan number float_of label_of inputs writer {| j_cfgs := [c]; j_vars := vars; j_scen := s |} = Ok (rows s c)) ->
  run_over_distribution (model_execute (A := A) nan number float_of label_of inputs writer) orders cfgs scens vars mw =
  Ok (flat_map (fun s => flat_map (rows s) cfgs) (match scens with OneScenario s => [s] | Scenarios l => l end)).
Proof. exact @c108. Qed.
Print Assumptions C108_workers.
(** The default prior and the default values have no preindustrial concentration. *)
Theorem C108_default_prior : forall (A : Type) (N : Num A), ~ In "preindustrial_co2_conc" (dkeys (the_prior (A := A) None)) /\ ~ In "preindustrial_co2_conc" (dkeys (the_values None)).
Proof. exact @c108_default. Qed.
Print Assumptions C108_default_prior.

Definition dx_lists (prior : dict (Q * Q)) (values : dict pyval) (points : list (list Q)) : list config :=
  match (do d <- distro_init (N := QNum) (Some prior) (Some values) None None; make_config_lists (N := QNum) ex_float d points (List.length points) None "x" None) with
  | Ok (Flat l, _) => l
  | _ => []
  end.
Definition dx_run (cfgs : list config) (mw : Z) : list (list Q) :=
  dx_numbers (run_over_distribution dx_execute ([], [1; 0]) cfgs (OneScenario wx_scen) ["Atmospheric Concentrations|CO2"] mw).
Definition dx_cfgs := dx_lists [("beta_f", (Qmake 1 4, Qmake 1 2)); ("mixed", (50, 100)%Q)] [("qbmb", VInt 0)] [[0; 0]; [1; 1]; [1 / 2; 0]]%Q.
(** Three samples of two parameters. *)
Example C108_example :
  map cf_carbon dx_cfgs = [Some [("beta_f", np 1 4)]; Some [("beta_f", np 1 2)]; Some [("beta_f", np 3 8)]] /\
  dx_run dx_cfgs 1 = dx_run dx_cfgs 3 /\ dx_run (map config_as_read dx_cfgs) 2 = dx_run dx_cfgs 1 /\ NoDup (map (fun l => nth 1 l 0%Q) (dx_run dx_cfgs 1)) /\
  dx_run dx_cfgs 1 = dx_run (firstn 1 dx_cfgs) 1 ++ dx_run (skipn 1 dx_cfgs) 1 /\ List.length (dx_run dx_cfgs 2) = 3.
Proof. vm_compute. repeat split; repeat (constructor; [cbn; intuition discriminate|]); constructor. Qed.
