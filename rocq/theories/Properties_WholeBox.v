(** * Properties_WholeBox: instances with the box carbon cycle, and parallel runs with either carbon cycle (C100, C101) *)
From Coq Require Import QArith.
From Verif Require Import PyBase PyBaseFacts Num M_Utils M_Flat M_Pams M_Gas M_Forcing M_RFuns M_Carbon M_CarbonBox M_TwoLayer M_UDM M_Driver M_Results M_Names M_Reader M_BoxRun M_Parallel M_Whole M_WholeBox
  Spec_Pams Spec_Parallel Spec_Whole Spec_Numbers Spec_WholeBox P_WholeBox Properties_Whole.

(** ** C100 *)
(** The run with configuration [c], after runs with configurations [cs] on the same instance: results of the computation whose every parameter is the value given for
    it, or its default, and whose series are those of the input. *)
Theorem C100_box_run : forall (A : Type) (N : Num A) nan number float_of cfg x m0 cs m c b,
  wf cfg -> Forall dictionaries (cs ++ [c]) -> x_forc x = None -> driver_carbon_class cfg = Ok BoxCarbon ->
  model_build number float_of cfg x = Ok m0 -> model_after nan number m0 cs m ->
  model_run nan number m (cf_udm c) (cf_emiconc c) (cf_carbon c) = Ok b ->
  exists i sc bp cl, instance_numbers cfg x i /\ scenario_numbers number cfg x cs c sc /\ box_numbers number (map cf_carbon (cs ++ [c])) bp /\ driver_thermal cfg = Ok cl /\
  match cl with
  | TwoLayer => exists p, tl_numbers number (cf_udm c) p /\
      o_exn (box_coupled_run nan bp sc (tl_thermal p) i (x_gas x) (tl_init p) true true []) = None /\
      same_results (model_results b) (o_results (box_coupled_run nan bp sc (tl_thermal p) i (x_gas x) (tl_init p) true true []))
  | UpwellingDiffusion => exists p, ud_numbers number (cf_udm c) p /\
      o_exn (box_coupled_run nan bp sc (ud_thermal p) i (x_gas x) (ud_init p) true true []) = None /\
      same_results (model_results b) (o_results (box_coupled_run nan bp sc (ud_thermal p) i (x_gas x) (ud_init p) true true []))
  end.
Proof. intros A N. exact (@c100_run A N). Qed.
Print Assumptions C100_box_run.
(** Two runs, on instances used in different ways, with the same ocean and handler sets, the same "just_one" and the same seven carbon numbers: one completes if the other
    does, and the results are the same. In particular "ocean_mixed_layer_depth", "preindustrial_co2_conc" and decay functions have no effect, given in whatever run. *)
Theorem C100_seven_numbers : forall (A : Type) (N : Num A) nan number float_of cfg x m0 cs m c cs' m' c' a,
  wf cfg -> x_forc x = None -> driver_carbon_class cfg = Ok BoxCarbon -> model_build number float_of cfg x = Ok m0 ->
  Forall dictionaries (cs ++ [c]) -> Forall dictionaries (cs' ++ [c']) ->
  model_after nan number m0 cs m -> model_after nan number m0 cs' m' -> same_for_boxes (A := A) cs c cs' c' ->
  model_run nan number m (cf_udm c) (cf_emiconc c) (cf_carbon c) = Ok a ->
  exists b, model_run nan number m' (cf_udm c') (cf_emiconc c') (cf_carbon c') = Ok b /\ same_results (model_results a) (model_results b).
Proof. intros A N. exact (@c100_same A N). Qed.
Print Assumptions C100_seven_numbers.

(** ** C101 *)
(** Scenarios with either carbon cycle and forcing runs, in any mixture: the rows of all jobs are those of the configurations run one by one on new instances. *)
Theorem C101_batching_invisible : forall (A : Type) (N : Num A) nan number float_of label_of inputs writer rows orders scens cfgs vars mw,
  scens <> [] -> cfgs <> [] -> (1 <= mw)%Z -> (forall s, In s scens -> wf s) ->
  (forall s m, In s scens -> model_construct number float_of inputs (check_numeric_pamset window_default s) = Ok m ->
     match m with
     | Standard w => in_rf_run (q_params w) = false -> self_contained (q_params w) cfgs
     | Boxes _ => box_contained (A := A) cfgs
     end) ->
  (forall s c, In s scens -> In c cfgs ->
     model_execute nan number float_of label_of inputs writer {| j_cfgs := [c]; j_vars := vars; j_scen := s |} = Ok (rows s c)) ->
  run_ciceroscm_parallel (model_execute nan number float_of label_of inputs writer) orders scens cfgs vars mw =
  Ok (flat_map (fun s => flat_map (rows s) cfgs) scens).
Proof. intros A N. exact (@c101 A N). Qed.
Print Assumptions C101_batching_invisible.

(** ** Examples: two years over the rationals *)
Definition bx_scen : dict pyval := ("carbon_cycle_model", VStr "box") :: wx_scen.
Definition bx_after (cs : list config) : result (model Q) :=
  fold_left (fun w c => do w <- w; model_run (N := QNum) (- 999)%Q wx_number w (cf_udm c) (cf_emiconc c) (cf_carbon c)) cs
    (model_build (N := QNum) wx_number FFin bx_scen (wx_data None)).
Definition bx_conc (r : result (model Q)) : result (list Q) :=
  do m <- r; do q <- model_timeseries (N := QNum) Qnum (VInt 2000) (VInt 2001) m "Atmospheric Concentrations|CO2"
    {| u_components := ["CO2"]; u_units := ["Pg C / yr"]; u_concunits := ["ppm"] |}; Ok (map Qred (snd (fst q))).
Definition bx_a : config := wx_config [] [("soil_respiration_rate", flt 3 100)] "0".
Definition bx_b : config := wx_config [] [("ocean_mixed_layer_depth", flt 60 1); ("preindustrial_co2_conc", flt 300 1); ("beta_f", VStr "x"); ("rs_function", VFun [flt 1 1] [flt 1 1])] "1".
Definition bx_c : config := wx_config [] [] "2".
(** The hypotheses hold: the instance is built with the box carbon cycle and the runs complete. A given number counts, and in later runs too; the mixed layer depth,
    the preindustrial concentration, a decay function and a text for a number do not. *)
Example C100_evaluated :
  wf bx_scen /\ driver_carbon_class bx_scen = Ok BoxCarbon /\ Forall dictionaries [bx_a; bx_b; bx_c] /\ same_for_boxes (A := Q) [bx_a] bx_b [] bx_a /\
  bx_conc (bx_after [bx_a]) = Ok [Qmake 629907 2123; Qmake 482223390287408815219 1531785988568275000] /\
  bx_conc (bx_after [bx_a; bx_b]) = bx_conc (bx_after [bx_a]) /\ bx_conc (bx_after [bx_b]) = bx_conc (bx_after [bx_c]) /\
  bx_conc (bx_after [bx_c]) = Ok [Qmake 54537 193; Qmake 3634675040902160539 12659388335275000].
Proof.
  split; [apply wf_lit; reflexivity|]. split; [reflexivity|]. split.
  { constructor; [|constructor; [|constructor; [|constructor]]]; (split; [|split]); apply wf_lit; reflexivity. }
  split; [|vm_compute; repeat split]. split; [reflexivity..|].
  intros k d f I. cbn in I. repeat (destruct I as [I|I]; [inversion I; subst; reflexivity|]). contradiction.
Qed.
(** One scenario with the default and one with the box carbon cycle, two configurations: one worker and two give the same rows. *)
Definition bx_run (scens : list (dict pyval)) (cfgs : list config) (mw : Z) : list (list Q) :=
  match run_ciceroscm_parallel (model_execute (N := QNum) (- 999)%Q wx_number FFin Qnum (fun _ => Ok (wx_data None)) wx_writer) ([], [1; 0]%nat) scens cfgs
          ["Atmospheric Concentrations|CO2"] mw with
  | Ok rows => map (fun row => flat_map (fun x => match snd x with Number q => [Qred q] | Text _ => [] end) row) rows
  | Err _ => []
  end.
Definition bx_uniform : list config := [wx_config [] [("soil_respiration_rate", flt 3 100); ("beta_f", flt 1 2)] "0"; wx_config [] [("soil_respiration_rate", flt 2 100); ("beta_f", flt 1 4)] "1"].
Example C101_evaluated :
  box_contained (A := Q) bx_uniform /\
  bx_run [wx_scen; bx_scen] bx_uniform 1 = bx_run [wx_scen; bx_scen] bx_uniform 2 /\ List.length (bx_run [wx_scen; bx_scen] bx_uniform 2) = 4%nat /\
  bx_run [wx_scen; bx_scen] bx_uniform 2 = bx_run [wx_scen] bx_uniform 1 ++ bx_run [bx_scen] bx_uniform 1 /\
  NoDup (map (fun l => nth 1 l 0%Q) (bx_run [wx_scen; bx_scen] bx_uniform 2)) /\
  bx_run [bx_scen] [bx_a; bx_c] 1 <> bx_run [bx_scen] [bx_a; bx_c] 2.
Proof.
  split; [|vm_compute; repeat split; [|discriminate]; repeat (constructor; [cbn; intuition discriminate|]); constructor].
  split; [constructor; [|constructor; [|constructor]]; (split; [|split]); apply wf_lit; reflexivity|]. split; [left; intros c [<-|[<-|[]]]; reflexivity|].
  intros k d f I. cbn in I. unfold uniform.
  repeat (destruct I as [I|I]; [inversion I; subst; first [left; intros c [<-|[<-|[]]]; reflexivity | right; intros c [<-|[<-|[]]]; discriminate]|]). contradiction.
Qed.
