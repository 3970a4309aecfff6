(** * Properties_Share: the frame of the carbon cycle of a completed run, and its airborne fraction (C106) *)
From Coq Require Import QArith Qabs Reals.
From Verif Require Import PyBase PyBaseFacts Num M_Gas M_Forcing M_Carbon M_CarbonBox M_CarbonBack M_Driver M_Results M_BoxRun M_Names Spec_Driver Spec_Reader Spec_Results Spec_Coupled Spec_Share
  Spec_Box P_CarbonFrame P_BoxGiven Properties_Coupled Properties_Box.

(** ** C106 *)
(** A run driven by emissions with the default carbon cycle. The emissions the fraction refers to are those of the emission input,
    without the natural ones that the carbon cycle received too ([C79_co2_alone]). *)
Theorem C106_emission_run : forall T nan cp sc (th : thermal R T) c gt t0 cc0 r out g,
  d_rf c = None -> conc_run (c_p sc) = false -> d_start c = nystart (c_p sc) -> d_end c = nyend (c_p sc) ->
  distinct_outputs (t_names th) -> dget (t_names th) "dT_glob" = Some "dtemp" -> get_first_key (t_names th) "dtemp" = Ok "dT_glob" ->
  wf gt -> dget gt "CO2" = Some g -> g_unit g <> "-" -> dmem (fr_cols (c_erf sc)) "CO2" = false ->
  wf (fr_cols (c_pc sc)) -> (forall k, In k (dkeys (fr_cols (c_pc sc))) -> dmem (fr_cols (c_erf sc)) k = true) -> (exists k, In k (dkeys (fr_cols (c_pc sc)))) ->
  ~ In "Year" (dkeys gt ++ dkeys (fr_cols (c_pc sc))) ->
  coupled_run nan cp sc th c gt t0 cc0 true true r = out -> o_exn out = None ->
  exists temp conc em af cd, in_array (o_results out) "dT_glob" temp /\ List.length temp = d_years c /\
    in_frame (o_results out) "concentrations" "CO2" conc /\ List.length conc = d_years c /\
    emitted (c_emis sc) (nystart (c_p sc)) (d_years c) em /\ airborne_share nan (preind cp) em conc af /\
    dget (o_results out) "carbon cycle" = Some (Fr cd) /\ fr_index cd = zrange (nystart (c_p sc)) (d_years c) /\
    dkeys (fr_cols cd) = ["Biosphere carbon flux"; "Ocean carbon flux"; "Mixed layer depth"; "CO2 solubility"; "Net Primary Production"; "Airborne fraction CO2"] /\
    dget (fr_cols cd) "Airborne fraction CO2" = Some af /\
    dget (fr_cols cd) "Mixed layer depth" = Some (map (mixed_layer_temp_feedback cp) temp) /\
    dget (fr_cols cd) "CO2 solubility" = Some (map (solubility_temp_feedback cp) temp) /\
    dget (fr_cols cd) "Net Primary Production" = Some (map (fnpp_from_temp cp) temp).
Proof. intros T. exact (@c106 T). Qed.
Print Assumptions C106_emission_run.

(** A run driven by concentrations: the emissions are those of the back-calculation with the temperatures of the same years, and the
    carbon cycle driven by them comes back to the given concentrations unless the search gave up after 100 steps. *)
Theorem C106_concentration_run : forall T nan (cp : cc_pam R) sc (th : thermal R T) c gt t0 cc0 r out g,
  d_rf c = None -> conc_run (c_p sc) = true -> d_start c = nystart (c_p sc) -> d_end c = nyend (c_p sc) ->
  distinct_outputs (t_names th) -> dget (t_names th) "dT_glob" = Some "dtemp" -> get_first_key (t_names th) "dtemp" = Ok "dT_glob" ->
  wf gt -> dget gt "CO2" = Some g -> g_unit g <> "-" -> dmem (fr_cols (c_erf sc)) "CO2" = false -> dmem (fr_cols (c_conc sc)) "CO2" = true ->
  coupled_run nan cp sc th c gt t0 cc0 true true r = out -> o_exn out = None ->
  exists temp conc h res cd, in_array (o_results out) "dT_glob" temp /\ List.length temp = d_years c /\
    given_conc (c_conc sc) "CO2" (nystart (c_p sc)) (d_years c) conc /\ back_calculate cp cc0 (combine conc temp) = (h, res) /\
    dget (o_results out) "carbon cycle" = Some (Fr cd) /\ fr_index cd = zrange (nystart (c_p sc)) (d_years c) /\
    dkeys (fr_cols cd) = ["Biosphere carbon flux"; "Ocean carbon flux"; "Mixed layer depth"; "CO2 solubility"; "Net Primary Production"; "Airborne fraction CO2"; "Emissions"] /\
    dget (fr_cols cd) "Mixed layer depth" = Some (map (mixed_layer_temp_feedback cp) temp) /\
    dget (fr_cols cd) "CO2 solubility" = Some (map (solubility_temp_feedback cp) temp) /\
    dget (fr_cols cd) "Net Primary Production" = Some (map (fnpp_from_temp cp) temp) /\
    exists em af, dget (fr_cols cd) "Emissions" = Some em /\ dget (fr_cols cd) "Airborne fraction CO2" = Some af /\ List.length em = d_years c /\
      airborne_share nan (preind cp) em conc af /\
      let again := snd (cc_run cp cc0 0 (combine em temp)) in List.length again = d_years c /\
      forall k, (k < d_years c)%nat -> (Rabs (nth k conc 0 - nth k again 0) / nth k conc 0 <= 1 / 10000000)%R \/ exists e, nth_error res k = Some (e, 100%nat).
Proof. intros T. exact (@c106_given T). Qed.
Print Assumptions C106_concentration_run.

(** The box carbon cycle: the same share, with 278 ppm as the start. *)
Theorem C106_box : forall T nan bp sc (th : thermal R T) c gt t0 r out g,
  d_rf c = None -> conc_run (c_p sc) = false -> d_start c = nystart (c_p sc) -> d_end c = nyend (c_p sc) ->
  distinct_outputs (t_names th) -> dget (t_names th) "dT_glob" = Some "dtemp" -> get_first_key (t_names th) "dtemp" = Ok "dT_glob" ->
  wf gt -> dget gt "CO2" = Some g -> g_unit g <> "-" -> dmem (fr_cols (c_erf sc)) "CO2" = false ->
  wf (fr_cols (c_pc sc)) -> (forall k, In k (dkeys (fr_cols (c_pc sc))) -> dmem (fr_cols (c_erf sc)) k = true) -> (exists k, In k (dkeys (fr_cols (c_pc sc)))) ->
  ~ In "Year" (dkeys gt ++ dkeys (fr_cols (c_pc sc))) ->
  box_coupled_run nan bp sc th c gt t0 true true r = out -> o_exn out = None ->
  exists conc em af, in_frame (o_results out) "concentrations" "CO2" conc /\ List.length conc = d_years c /\
    emitted (c_emis sc) (nystart (c_p sc)) (d_years c) em /\ in_frame (o_results out) "carbon cycle" "Airborne fraction CO2" af /\ airborne_share nan 278 em conc af.
Proof. intros T. exact (@c106_box T). Qed.
Print Assumptions C106_box.

(** With given concentrations the box model is not run: its pools stay as they were, and the frame has no airborne fraction and no
    emissions. The two fluxes follow from the given concentration and the temperature of the year. *)
Theorem C106_box_concentration_run : forall T nan (bp : box_pam R) sc (th : thermal R T) c gt t0 r out g,
  d_rf c = None -> conc_run (c_p sc) = true -> d_start c = nystart (c_p sc) -> d_end c = nyend (c_p sc) ->
  distinct_outputs (t_names th) -> dget (t_names th) "dT_glob" = Some "dtemp" -> get_first_key (t_names th) "dtemp" = Ok "dT_glob" ->
  wf gt -> dget gt "CO2" = Some g -> g_unit g <> "-" -> dmem (fr_cols (c_erf sc)) "CO2" = false -> dmem (fr_cols (c_conc sc)) "CO2" = true ->
  box_coupled_run nan bp sc th c gt t0 true true r = out -> o_exn out = None ->
  exists temp conc npp flux cd, in_array (o_results out) "dT_glob" temp /\ List.length temp = d_years c /\
    given_conc (c_conc sc) "CO2" (nystart (c_p sc)) (d_years c) conc /\
    dget (o_results out) "carbon cycle" = Some (Fr cd) /\ fr_index cd = zrange (nystart (c_p sc)) (d_years c) /\
    fr_cols cd = [("Net primary production", npp); ("Ocean carbon flux", flux)] /\ List.length npp = d_years c /\ List.length flux = d_years c /\
    (forall k, (k < d_years c)%nat -> nth k npp 0%R = production bp (nth k conc 0%R) (nth k temp 0%R) /\
       nth k flux 0%R = (ocean_rate bp (nth k temp 0) * (nth k conc 0 - 278))%R) /\
    fst (o_handler out) = box_init.
Proof. intros T. exact (@c106_box_given T). Qed.
Print Assumptions C106_box_concentration_run.

(** 10 PgC are emitted in either year of the example; the carbon cycle received 10.25. With the box model more than the emissions is
    airborne in the first year. *)
Definition sx_share (pre : Q) (em conc af : option (list Q)) : bool :=
  match em, conc, af with
  | Some [e1; e2], Some [c1; c2], Some [a1; a2] =>
      Qeq_bool a1 (2123 / 1000 * (c1 - pre) / e1) && Qeq_bool a2 (2123 / 1000 * (c2 - pre) / (e1 + e2))
  | _, _, _ => false
  end%Q.
Example C106_emission_example :
  sx_share 278 (Some [10; 10]%Q) (kx_column "concentrations" "CO2" (kx_carbon false true)) (kx_column "carbon cycle" "Airborne fraction CO2" (kx_carbon false true)) = true /\
  sx_share 278 (Some [41 / 4; 41 / 4]%Q) (kx_column "concentrations" "CO2" (kx_carbon false true)) (kx_column "carbon cycle" "Airborne fraction CO2" (kx_carbon false true)) = false /\
  sx_share 278 (Some [10; 10]%Q) (bx_column "concentrations" "CO2" (bx_run false)) (bx_column "carbon cycle" "Airborne fraction CO2" (bx_run false)) = true /\
  bx_column "carbon cycle" "Airborne fraction CO2" (bx_run false) = Some [Qmake 41 40; Qmake 350660381 339680000].
Proof. vm_compute. repeat split. Qed.
(** No emissions up to some year: nothing in the column is a number. *)
Example C106_undefined :
  let sc := {| c_p := c_p (kx_scenario false); c_conc := c_conc (kx_scenario false);
     c_emis := Build_frame [2000; 2001; 2002]%Z [("CO2_FF", [8; - 9; 1]%Q); ("CO2_AFOLU", [2; - 1; 1]%Q); ("CH4", [1; 1; 1]%Q); ("N2O", [1; 1; 1]%Q); ("SO2", [0; 6; 6]%Q); ("BC", [1; 2; 2]%Q)];
     c_nat_ch4 := c_nat_ch4 (kx_scenario false); c_nat_n2o := c_nat_n2o (kx_scenario false);
     c_pert := None; c_pc := c_pc (kx_scenario false); c_erf := c_erf (kx_scenario false) |} in
  kx_column "carbon cycle" "Airborne fraction CO2"
    (coupled_run (N := QNum) (- 999)%Q kx_cc sc kx_thermal kx_inst kx_table tt (cc_init (N := QNum) kx_cc) true true []) = Some [- 999; - 999]%Q.
Proof. vm_compute. reflexivity. Qed.
(** Concentrations of 282.27 and 285.67 ppm: one halving finds the emissions of the first year, the first guess is close enough in the second. *)
Definition sx_cc : cc_pam Q :=
  {| beta_f := 0; mixed_carbon := 75; ml_w_sigmoid := 3; ml_fracmax := 1 / 2; ml_t_half := 1 / 2; t_half := 1 / 2;
     w_sigmoid := 7; t_threshold := 4; w_threshold := 7; solubility_sens := 2 / 100; solubility_limit := 1 / 2; ml_depth_min := 10;
     preind := 278; idtm := 1; years_tot := 2; r_s := [1; 1 / 2]; r_b := [0; 1 / 10] |}%Q.
Definition sx_conc : list Q := [Qmake 599254 2123; Qmake 1862172865026421040391266897456510104245731742575737018 6518599747460334624337811120046159391853059357938641].
Definition sx_given : outcome Q (handler Q) :=
  let sc := {| c_p := c_p (kx_scenario true); c_conc := Build_frame [2000; 2001]%Z [("CO2", sx_conc); ("CH4", [700; 701]%Q); ("N2O", [270; 271]%Q)];
     c_emis := c_emis (kx_scenario true); c_nat_ch4 := c_nat_ch4 (kx_scenario true); c_nat_n2o := c_nat_n2o (kx_scenario true);
     c_pert := None; c_pc := c_pc (kx_scenario true); c_erf := c_erf (kx_scenario true) |} in
  coupled_run (N := QNum) (- 999)%Q sx_cc sc kx_thermal kx_inst kx_table tt (cc_init (N := QNum) sx_cc) true true [].
Example C106_given_example :
  let em := [Qmake 239 25; Qmake 110918557198531568011608474724516606472386380136899 15352331011446854979599178332656993386370841634335] in
  o_exn sx_given = None /\ kx_column "carbon cycle" "Emissions" sx_given = Some em /\
  sx_share 278 (Some em) (Some sx_conc) (kx_column "carbon cycle" "Airborne fraction CO2" sx_given) = true /\
  match kx_array "dT_glob" sx_given with
  | Some temp => forallb (fun ab => Qle_bool (Qabs (fst ab - snd ab) * 10000000) (fst ab))
                   (combine sx_conc (snd (cc_run (N := QNum) sx_cc (cc_init (N := QNum) sx_cc) 0 (combine em temp))))
  | None => false
  end = true.
Proof. vm_compute. repeat split. Qed.
(** 280 and 290 ppm given to the box model (without fertilisation) *)
Example C106_box_given_example :
  match bx_run true with
  | {| o_results := r; o_handler := h; o_exn := None |} =>
      match dget r "dT_glob", dget r "carbon cycle" with
      | Some (Arr [t; u]), Some (Fr f) => map (fun kv => (fst kv, map Qred (snd kv))) (fr_cols f) =
            [("Net primary production", map Qred [60 - t / 10; 60 - u / 10]%Q); ("Ocean carbon flux", map Qred [(1 - t / 100) / 50 * 2; (1 - u / 100) / 50 * 12]%Q)] /\
          ~ t == u /\ fst h = box_init (N := QNum)
      | _, _ => False
      end
  | _ => False
  end%Q.
Proof. vm_compute. split; [reflexivity|]. split; [discriminate|reflexivity]. Qed.
