(** * Properties_Whole: from configurations to the rows of the parallel wrapper, with the numbers computed (C98) *)
From Coq Require Import QArith.
From Verif Require Import PyBase PyBaseFacts Num M_Utils M_Flat M_Pams M_Gas M_Forcing M_RFuns M_Carbon M_TwoLayer M_UDM M_Driver M_Results M_Names M_Reader M_Parallel M_Whole
  Spec_Pams Spec_Parallel Spec_Whole P_Whole.

(** ** C98 *)
(** The rows of all jobs are those of the configurations run one by one on new instances, whatever the number of workers and the order of completion. *)
Theorem C98_batching_invisible : forall (A : Type) (N : Num A) nan number float_of label_of inputs writer rows orders scens cfgs vars mw,
  scens <> [] -> cfgs <> [] -> (1 <= mw)%Z -> (forall s, In s scens -> wf s) ->
  (forall s w, In s scens -> whole_construct number float_of inputs (check_numeric_pamset window_default s) = Ok w ->
     in_rf_run (q_params w) = false -> self_contained (q_params w) cfgs) ->
  (forall s c, In s scens -> In c cfgs ->
     whole_execute nan number float_of label_of inputs writer {| j_cfgs := [c]; j_vars := vars; j_scen := s |} = Ok (rows s c)) ->
  run_ciceroscm_parallel (whole_execute nan number float_of label_of inputs writer) orders scens cfgs vars mw =
  Ok (flat_map (fun s => flat_map (rows s) cfgs) scens).
Proof. intros A N. exact (@c98 A N). Qed.
Print Assumptions C98_batching_invisible.
(** Forcing runs: any configurations. *)
Theorem C98_forcing_runs : forall (A : Type) (N : Num A) nan number float_of label_of inputs writer rows orders scens cfgs vars mw,
  scens <> [] -> cfgs <> [] -> (1 <= mw)%Z -> (forall s, In s scens -> wf s) ->
  (forall s x, In s scens -> inputs (check_numeric_pamset window_default s) = Ok x -> x_forc x <> None) ->
  (forall s c, In s scens -> In c cfgs ->
     whole_execute nan number float_of label_of inputs writer {| j_cfgs := [c]; j_vars := vars; j_scen := s |} = Ok (rows s c)) ->
  run_ciceroscm_parallel (whole_execute nan number float_of label_of inputs writer) orders scens cfgs vars mw =
  Ok (flat_map (fun s => flat_map (rows s) cfgs) scens).
Proof. intros A N. exact (@c98_forcing A N). Qed.
Print Assumptions C98_forcing_runs.
(** A run on an instance that has run other configurations gives the results of a new instance, if it has the same parameters; it completes if the one on the new
    instance does. *)
Theorem C98_used_instance : forall (A : Type) (N : Num A) nan number float_of cfg x w0 cs w c i a,
  build number float_of cfg x = Ok w0 -> after_runs nan number w0 cs w ->
  whole_run nan number w0 (cf_udm c) (cf_emiconc c) (cf_carbon c) = Ok a ->
  instance_run (q_params w) (cf_udm c) (cf_emiconc c) (cf_carbon c) = Ok i -> same_parameters i (q_params a) ->
  exists b, whole_run nan number w (cf_udm c) (cf_emiconc c) (cf_carbon c) = Ok b /\ q_params b = i /\ same_results (q_results a) (q_results b).
Proof. intros A N. exact (@c98_rerun A N). Qed.
Print Assumptions C98_used_instance.

(** ** Examples: two years over the rationals, two-layer ocean, carbon cycle with one step per year *)
Definition wx_gas (u : string) : gas Q :=
  {| g_unit := u; g_beta := 1%Q; g_alpha := 0%Q; g_tau1 := 1%Q; g_tau2 := 0%Q; g_tau3 := 0%Q; g_nat := 0%Q; g_sarf := 0%Q |}.
Definition wx_data (forc : option (rf_data Q)) : data Q :=
  {| x_forc := forc; x_conc_run := false;
     x_gas := [("CO2", wx_gas "ppm"); ("CH4", wx_gas "ppb"); ("N2O", wx_gas "ppb"); ("SF6", wx_gas "ppt"); ("SO2", wx_gas "-"); ("STRAT_O3", wx_gas "-")];
     x_nat_ch4 := Build_frame [2000; 2001]%Z [("CH4", [0; 0]%Q)]; x_nat_n2o := Build_frame [2000; 2001]%Z [("N2O", [0; 0]%Q)];
     x_conc := Build_frame [2000; 2001]%Z [("CO2", [280; 290]%Q); ("CH4", [700; 701]%Q); ("N2O", [270; 271]%Q); ("SF6", [1; 2]%Q)];
     x_emis := Build_frame [2000; 2001; 2002]%Z
       [("CO2_FF", [8; 9; 1]%Q); ("CO2_AFOLU", [2; 1; 1]%Q); ("CH4", [1; 1; 1]%Q); ("N2O", [1; 1; 1]%Q); ("SO2", [0; 6; 6]%Q); ("SF6", [1; 2; 2]%Q);
        ("NOx", [1; 1; 1]%Q); ("CO", [1; 1; 1]%Q); ("NMVOC", [1; 1; 1]%Q)];
     x_perturb_em := None; x_perturb_forc := None; x_sun := [1 / 2; 0]%Q; x_luc := [0; 0]%Q; x_vn := [[0]; [0]]%Q; x_vs := [[0]; [0]]%Q |}.
Definition wx_number (f : pyfloat) : Q := match f with FFin q => Qred q | _ => (- 999)%Q end.
Definition wx_scen : dict pyval :=
  [("nystart", VInt 2000); ("nyend", VInt 2001); ("emstart", VInt 2001); ("idtm", VInt 1); ("thermal_model", VStr "twolayer");
   ("rs_function", VFun [flt 1 10; flt 6 10] [flt 8 10]); ("rb_function", VFun [flt 7 10] [flt 28 10]); ("gaspam_file", VStr "gases.txt"); ("scenname", VStr "A")].
Definition wx_writer (_ _ _ : pyval) : result units := Ok {| u_components := ["CO2"]; u_units := ["Pg C / yr"]; u_concunits := ["ppm"] |}.
Definition wx_run (forc : option (rf_data Q)) (cfgs : list config) (var : string) (mw : Z) : list (list Q) :=
  match run_ciceroscm_parallel (whole_execute (N := QNum) (- 999)%Q wx_number FFin Qnum (fun _ => Ok (wx_data forc)) wx_writer) ([], [1; 0]%nat) [wx_scen] cfgs [var] mw with
  | Ok rows => map (fun row => flat_map (fun x => match snd x with Number q => [q] | Text _ => [] end) row) rows
  | Err _ => []
  end.
Definition wx_config (udm carbon : dict pyval) (n : string) : config :=
  {| cf_udm := Some udm; cf_emiconc := Some []; cf_carbon := Some carbon; cf_index := Some (VStr n) |}.
Definition wx_uniform : list config := [wx_config [] [("beta_f", flt 1 2)] "0"; wx_config [] [("beta_f", flt 1 4)] "1"].
Definition wx_mixed : list config := [wx_config [("mixed", VInt 100)] [("beta_f", flt 1 2)] "0"; wx_config [] [] "1"].
(** Two configurations that both give "beta_f": one worker and two give the same concentrations, which differ between the configurations. *)
Example C98_evaluated :
  (forall i, self_contained i wx_uniform) /\ wf wx_scen /\
  wx_run None wx_uniform "Atmospheric Concentrations|CO2" 1 = wx_run None wx_uniform "Atmospheric Concentrations|CO2" 2 /\
  wx_run None wx_uniform "Atmospheric Concentrations|CO2" 2 =
    [[Qmake 144336160 507397; Qmake 15370101701161744269123211484480 54563562475892808377769678641];
     [Qmake 144336160 507397; Qmake 15554780172769625402824195859480 54563562475892808377769678641]]%Q.
Proof.
  split; [|split; [apply wf_lit; reflexivity|vm_compute; split; reflexivity]].
  intros i. split; [intros c [<-|[<-|[]]]; split; apply wf_lit; reflexivity|].
  split; [left; intros c [<-|[<-|[]]]; reflexivity|]. split.
  { intros k Hk. unfold uniform. destruct (String.eqb_spec k "beta_f") as [->|N1]; [right; intros c [<-|[<-|[]]]; discriminate|].
    left. apply String.eqb_neq in N1. rewrite String.eqb_sym in N1.
    intros c [<-|[<-|[]]]; unfold number_given, given; cbn [wx_config cf_carbon dget]; rewrite ?(String.eqb_sym k), N1; reflexivity. }
  split; [left; intros c [<-|[<-|[]]]; vm_compute; reflexivity|]. split; [left; intros c [<-|[<-|[]]]; vm_compute; reflexivity|].
  intros c v [<-|[<-|[]]]; discriminate.
Qed.
(** Only the first configuration gives "beta_f" (and a mixed layer depth): with one worker the second one computes concentrations with the first one's value.
    In a forcing run nothing of the kind happens: the ocean parameters are not kept. *)
Example C98_not_self_contained :
  map (fun l => nth_error l 1) (wx_run None wx_mixed "Atmospheric Concentrations|CO2" 1) <> map (fun l => nth_error l 1) (wx_run None wx_mixed "Atmospheric Concentrations|CO2" 2) /\
  wx_run (Some (RfArray [1; 2]%Q)) wx_mixed "Surface Air Ocean Blended Temperature Change" 1 =
    [[Qmake 419764401 978010000; Qmake 410461669285383 639374037500000]; [Qmake 249135651 489005000; Qmake 31871677760877 39960877343750]]%Q /\
  wx_run (Some (RfArray [1; 2]%Q)) wx_mixed "Surface Air Ocean Blended Temperature Change" 2 =
    [[Qmake 419764401 978010000; Qmake 410461669285383 639374037500000]; [Qmake 249135651 489005000; Qmake 31871677760877 39960877343750]]%Q.
Proof. vm_compute. repeat split; discriminate. Qed.
