(** * Properties_Coupled: whole emission and concentration runs with the default carbon cycle (C79, C83, C84, C85) *)
From Coq Require Import Reals QArith.
From Verif Require Import PyBase PyBaseFacts Num M_Gas M_Forcing M_TwoLayer M_UDM M_Carbon M_Driver M_Results M_BoxRun Spec_Forc Spec_Driver Spec_Reader Spec_Results Spec_Coupled
  Spec_UDM Spec_Carbon P_Driver3 P_Coupled P_Coupled2 P_Coupled3 P_Coupled4 P_Coupled7 P_Coupled8.

(** For the examples: 2000 and 2001, other gases follow their emissions from 2001 on. The thermal model returns three times the
    northern forcing; the carbon cycle has one step per year. *)
Definition kx_pams (crun : bool) : hpam Q :=
  {| nystart := 2000; nyend := 2001; emstart := 2001; conc_run := crun; lifetime_mode := ""; just_one := None; ref_yr := 2000;
     qbmb := 0%Q; qo3 := 0%Q; qdirso2 := (- (1 / 2))%Q; qindso2 := 0%Q; qbc := 0%Q; qoc := 0%Q; qh2o_ch4 := 0%Q; qnmvoc := 0%Q; qnh3 := 0%Q; qnox := 0%Q;
     cl_dict := []; br_dict := [] |}.
Definition kx_gas (u : string) (alpha nat : Q) : gas Q :=
  {| g_unit := u; g_beta := 1%Q; g_alpha := alpha; g_tau1 := 1%Q; g_tau2 := 0%Q; g_tau3 := 0%Q; g_nat := nat; g_sarf := 0%Q |}.
Definition kx_co2 : gas Q := kx_gas "ppm" 0 (1 / 4).
Definition kx_table : dict (gas Q) :=
  [("CO2", kx_co2); ("CH4", kx_gas "ppb" 0 0); ("N2O", kx_gas "ppb" 0 0); ("SF6", kx_gas "ppt" 0 0); ("SO2", kx_gas "-" 0 0); ("BC", kx_gas "-" 2 0); ("LANDUSE", kx_gas "-" 0 0)].
Definition kx_scenario (crun : bool) : scenario Q :=
  {| c_p := kx_pams crun;
     c_conc := Build_frame [2000; 2001]%Z [("CO2", [280; 290]%Q); ("CH4", [700; 701]%Q); ("N2O", [270; 271]%Q)];
     c_emis := Build_frame [2000; 2001; 2002]%Z [("CO2_FF", [8; 9; 1]%Q); ("CO2_AFOLU", [2; 1; 1]%Q); ("CH4", [1; 1; 1]%Q); ("N2O", [1; 1; 1]%Q); ("SO2", [0; 6; 6]%Q); ("BC", [1; 2; 2]%Q)];
     c_nat_ch4 := Build_frame [2000; 2001]%Z [("CH4", [0; 0]%Q)]; c_nat_n2o := Build_frame [2000; 2001]%Z [("N2O", [0; 0]%Q)];
     c_pert := None; c_pc := Build_frame [2000; 2001]%Z [("SF6", [0; 1]%Q)]; c_erf := Build_frame [2000; 2001]%Z [("SF6", [1 / 8; 1 / 4]%Q)] |}.
Definition kx_inst : inst Q :=
  {| d_start := 2000; d_end := 2001; d_rf := None; d_sun := [1 / 2; 0]%Q; d_luc := [1 / 8; - (1 / 8)]%Q; d_vn := [[0]; [0]]%Q; d_vs := [[0]; [0]]%Q |}.
Definition kx_thermal : thermal Q unit :=
  {| t_names := [("dT_glob", "dtemp")]; t_year := fun _ i => Ok (tt, [("dtemp", Qred (3 * i_nh i))]) |}.
Definition kx_cc : cc_pam Q :=
  {| beta_f := 1; mixed_carbon := 75; ml_w_sigmoid := 3; ml_fracmax := 1 / 2; ml_t_half := 1 / 2; t_half := 1 / 2;
     w_sigmoid := 7; t_threshold := 4; w_threshold := 7; solubility_sens := 2 / 100; solubility_limit := 1 / 2; ml_depth_min := 10;
     preind := 278; idtm := 1; years_tot := 2; r_s := [1; 1 / 2]; r_b := [0; 1 / 10] |}%Q.
Definition kx_carbon (crun carbon : bool) : outcome Q (handler Q) :=
  coupled_run (N := QNum) (- 999)%Q kx_cc (kx_scenario crun) kx_thermal kx_inst kx_table tt (cc_init (N := QNum) kx_cc) true carbon [].
Definition kx_run (crun : bool) : outcome Q (handler Q) := kx_carbon crun false.
Definition kx_array (k : string) (o : outcome Q (handler Q)) : option (list Q) :=
  match dget (o_results o) k with Some (Arr l) => Some l | _ => None end.
Definition kx_column (f k : string) (o : outcome Q (handler Q)) : option (list Q) :=
  match dget (o_results o) f with Some (Fr fr) => dget (fr_cols fr) k | _ => None end.

(** ** C79 *)
(** [c_pc] holds the concentrations of the gases with precalculated forcing, [c_erf] their forcing. *)
Theorem C79_co2_alone : forall (A : Type) (N : Num A) T nan cp sc (th : thermal A T) c gt t0 cc0 carbon r out g,
  d_rf c = None -> conc_run (c_p sc) = false -> d_start c = nystart (c_p sc) -> d_end c = nyend (c_p sc) ->
  distinct_outputs (t_names th) -> dget (t_names th) "dT_glob" = Some "dtemp" ->
  wf gt -> dget gt "CO2" = Some g -> g_unit g <> "-" -> dmem (fr_cols (c_erf sc)) "CO2" = false ->
  wf (fr_cols (c_pc sc)) -> (forall k, In k (dkeys (fr_cols (c_pc sc))) -> dmem (fr_cols (c_erf sc)) k = true) -> (exists k, In k (dkeys (fr_cols (c_pc sc)))) ->
  ~ In "Year" (dkeys gt ++ dkeys (fr_cols (c_pc sc))) ->
  coupled_run nan cp sc th c gt t0 cc0 true carbon r = out -> o_exn out = None ->
  exists temp ins, in_array (o_results out) "dT_glob" temp /\ List.length temp = d_years c /\
    co2_drivers (c_emis sc) g temp (nystart (c_p sc)) (d_years c) ins /\
    in_frame (o_results out) "concentrations" "CO2" (snd (cc_run cp cc0 0 ins)) /\
    fst (o_handler out) = fst (cc_run cp cc0 0 ins).
Proof. intros A N T. exact (@c79 A N T). Qed.
Print Assumptions C79_co2_alone.
(** Both thermal models of the package qualify. *)
Theorem C79_models : forall (A : Type) (N : Num A) (p2 : tl_pam A) (pu : ud_pam A),
  (distinct_outputs (t_names (tl_thermal p2)) /\ dget (t_names (tl_thermal p2)) "dT_glob" = Some "dtemp") /\
  (distinct_outputs (t_names (ud_thermal pu)) /\ dget (t_names (ud_thermal pu)) "dT_glob" = Some "dtemp").
Proof. intros A N p2 pu. split; (split; [|reflexivity]); [exact tl_distinct|exact ud_distinct]. Qed.
Print Assumptions C79_models.
(** Temperature 963/400 of the first year drives the second (the same emissions without it give another concentration);
    the concentration file plays no part, though emissions take over in the second year only. *)
Example C79_example :
  (o_exn (kx_run false), kx_array "dT_glob" (kx_run false)) = (None, Some [Qmake 963 400; Qmake (- 1677) 400]) /\
  kx_column "concentrations" "CO2" (kx_run false) =
    Some (snd (cc_run (N := QNum) kx_cc (cc_init (N := QNum) kx_cc) 0 [(8 + 2 + 1 / 4, 0); (9 + 1 + 1 / 4, Qmake 963 400)]%Q)) /\
  kx_column "concentrations" "CO2" (kx_run false) <>
    Some (snd (cc_run (N := QNum) kx_cc (cc_init (N := QNum) kx_cc) 0 [(8 + 2 + 1 / 4, 0); (9 + 1 + 1 / 4, 0)]%Q)) /\
  kx_column "concentrations" "CO2" (kx_run true) = Some [280; 290]%Q.
Proof.
  split; [vm_compute; reflexivity|]. split; [vm_compute; reflexivity|]. split; [|vm_compute; reflexivity].
  intros X. vm_compute in X. discriminate X.
Qed.

(** ** C83 *)
(** For emission and concentration runs. *)
Theorem C83_total : forall T nan cp sc (th : thermal R T) c gt t0 cc0 carbon r out,
  d_rf c = None -> d_start c = nystart (c_p sc) -> d_end c = nyend (c_p sc) ->
  distinct_outputs (t_names th) -> dget (t_names th) "dT_glob" = Some "dtemp" ->
  wf gt -> wf (fr_cols (c_erf sc)) -> (exists k, In k (dkeys (fr_cols (c_erf sc)))) ->
  (forall k, In k reserved -> ~ In k (dkeys gt) /\ ~ In k (dkeys (fr_cols (c_erf sc)))) ->
  just_one (c_p sc) = None -> (forall y v, ~ In (y, "Total_forcing", v) (pert_rows (c_pert sc))) ->
  coupled_run nan cp sc th c gt t0 cc0 true carbon r = out -> o_exn out = None ->
  exists f total, dget (o_results out) "forcing" = Some (Fr f) /\ in_array (o_results out) "Total_forcing" total /\
    List.length total = d_years c /\ dget (fr_cols f) "Total_forcing" = Some total /\
    forall k, (k < d_years c)%nat -> nth k total 0%R = row_sum f k.
Proof.
  intros T nan cp sc th c gt t0 cc0. exact (@c83 T nan (cc_state R) (co2em2conc cp) (carbon_data nan cp (c_p sc) (c_emis sc)) sc th c gt t0 cc0).
Qed.
Print Assumptions C83_total.
(** The same with any carbon cycle, the box carbon cycle among them. *)
Theorem C83_any_carbon : forall T nan CC year data sc (th : thermal R T) c gt t0 (cc0 : CC) carbon r out,
  d_rf c = None -> d_start c = nystart (c_p sc) -> d_end c = nyend (c_p sc) ->
  distinct_outputs (t_names th) -> dget (t_names th) "dT_glob" = Some "dtemp" ->
  wf gt -> wf (fr_cols (c_erf sc)) -> (exists k, In k (dkeys (fr_cols (c_erf sc)))) ->
  (forall k, In k reserved -> ~ In k (dkeys gt) /\ ~ In k (dkeys (fr_cols (c_erf sc)))) ->
  just_one (c_p sc) = None -> (forall y v, ~ In (y, "Total_forcing", v) (pert_rows (c_pert sc))) ->
  any_run nan CC year data sc th c gt t0 cc0 true carbon r = out -> o_exn out = None ->
  exists f total, dget (o_results out) "forcing" = Some (Fr f) /\ in_array (o_results out) "Total_forcing" total /\
    List.length total = d_years c /\ dget (fr_cols f) "Total_forcing" = Some total /\
    forall k, (k < d_years c)%nat -> nth k total 0%R = row_sum f k.
Proof. intros T. exact (@c83 T). Qed.
Print Assumptions C83_any_carbon.
Example C83_example :
  (kx_array "Total_forcing" (kx_run false), match dget (o_results (kx_run false)) "forcing" with Some (Fr fr) => fr_cols fr | _ => [] end) =
  (Some [1 / 4; - (7 / 8)]%Q,
   [("SF6", [1 / 8; 1 / 4]%Q); ("CO2", [0; 0]%Q); ("CH4", [0; 0]%Q); ("N2O", [0; 0]%Q); ("SO4_DIR", [0; - (3)]%Q); ("BC", [0; 2]%Q);
    ("LANDUSE", [1 / 8; - (1 / 8)]%Q); ("Total_forcing", [1 / 4; - (7 / 8)]%Q); ("Year", [2000; 2001]%Q)]).
Proof. vm_compute. reflexivity. Qed.
(** The parts are the components and the precalculated gas: 3 and 2 add up, the year and the total do not enter. *)
Example C83_row_sum : forall a b : R, row_sum (Build_frame [2000%Z] [("HFC", [a]); ("CO2", [b]); ("Total_forcing", [7%R]); ("Year", [2000%R])]) 0 = (a + (b + 0))%R.
Proof. reflexivity. Qed.

(** ** C84 *)
(** Carbon balance of the result frames: what was emitted and is not found in the air, the biosphere and the ocean columns is
    the error of the time stepping (C26), written with the state of the carbon cycle after the run. *)
Theorem C84_carbon_balance : forall T nan cp sc (th : thermal R T) c gt t0 r out g,
  d_rf c = None -> conc_run (c_p sc) = false -> d_start c = nystart (c_p sc) -> d_end c = nyend (c_p sc) ->
  distinct_outputs (t_names th) -> dget (t_names th) "dT_glob" = Some "dtemp" ->
  wf gt -> dget gt "CO2" = Some g -> g_unit g <> "-" -> dmem (fr_cols (c_erf sc)) "CO2" = false ->
  wf (fr_cols (c_pc sc)) -> (forall k, In k (dkeys (fr_cols (c_pc sc))) -> dmem (fr_cols (c_erf sc)) k = true) -> (exists k, In k (dkeys (fr_cols (c_pc sc)))) ->
  ~ In "Year" (dkeys gt ++ dkeys (fr_cols (c_pc sc))) ->
  idtm cp <> 0%nat -> List.length (r_s cp) = (idtm cp * years_tot cp)%nat -> List.length (r_b cp) = (idtm cp * years_tot cp)%nat -> d_years c <> 0%nat ->
  coupled_run nan cp sc th c gt t0 (cc_init cp) true true r = out -> o_exn out = None ->
  exists temp ins conc bio ocean, in_array (o_results out) "dT_glob" temp /\ co2_drivers (c_emis sc) g temp (nystart (c_p sc)) (d_years c) ins /\
    in_frame (o_results out) "concentrations" "CO2" conc /\ in_frame (o_results out) "carbon cycle" "Biosphere carbon flux" bio /\
    in_frame (o_results out) "carbon cycle" "Ocean carbon flux" ocean /\
    List.length conc = d_years c /\ List.length bio = d_years c /\ List.length ocean = d_years c /\
    let h := fst (o_handler out) in
    let em y := fst (nth y ins (0, 0)%R) in let t y := snd (nth y ins (0, 0)%R) in let final := (d_years c * idtm cp - 1)%nat in
    (pgc * (List.last conc 0 - preind cp) + total bio + total ocean - total (map fst ins)
     = pgc * (1 / INR (idtm cp) / 2 * (surplus cp em (h_d h) 0 - surplus cp em (h_d h) final + gas_rate * nth final (h_s h) 0)
              + (h_y h - h_y (cc_steps cp (cc_init cp) em t final)) / 2))%R.
Proof. intros T. exact (@c84 T). Qed.
Print Assumptions C84_carbon_balance.
(** 20.5 PgC are emitted in two years; the columns do not account for exactly that. *)
Example C84_example :
  match kx_column "concentrations" "CO2" (kx_carbon false true), kx_column "carbon cycle" "Biosphere carbon flux" (kx_carbon false true),
        kx_column "carbon cycle" "Ocean carbon flux" (kx_carbon false true), o_exn (kx_carbon false true) with
  | Some [_; c], Some [b1; b2], Some [o1; o2], None =>
      let left_over := (2123 / 1000 * (c - 278) + (b1 + b2) + (o1 + o2) - (41 / 2))%Q in
      negb (Qeq_bool left_over 0)
  | _, _, _, _ => false
  end = true /\ kx_column "carbon cycle" "Ocean carbon flux" (kx_carbon false false) = None.
Proof. split; vm_compute; reflexivity. Qed.

(** ** C85 *)
(** The reported series up to a row depend on inputs up to that row only, apart from the entries [conc_until] and [emis_until] add. *)
Theorem C85_arrays : forall (A : Type) (N : Num A) T nan cp (th : thermal A T) gt t0 cc0 M sc sc' c c' carbon carbon' r r' out out',
  agree_until M sc sc' c c' -> wf (fr_cols (c_erf sc)) -> wf (fr_cols (c_erf sc')) ->
  distinct_outputs (t_names th) -> (forall k, In k ["emissions"; "concentrations"; "forcing"; "carbon cycle"] -> ~ In k (output_names (t_names th))) ->
  coupled_run nan cp sc th c gt t0 cc0 true carbon r = out -> coupled_run nan cp sc' th c' gt t0 cc0 true carbon' r' = out' ->
  o_exn out = None -> o_exn out' = None ->
  forall o, In o (output_names (t_names th)) -> exists v v', in_array (o_results out) o v /\ in_array (o_results out') o v' /\
    List.length v = d_years c /\ List.length v' = d_years c /\ rows_agree M v v'.
Proof. intros A N T. exact (@c85_a A N T). Qed.
Print Assumptions C85_arrays.
Theorem C85_forcing : forall (A : Type) (N : Num A) T nan cp (th : thermal A T) gt t0 cc0 M sc sc' c c' carbon carbon' r r' out out',
  agree_until M sc sc' c c' -> wf (fr_cols (c_erf sc)) -> wf (fr_cols (c_erf sc')) ->
  distinct_outputs (t_names th) -> wf gt -> (exists k, In k (dkeys (fr_cols (c_erf sc)))) ->
  (forall k, In k reserved -> ~ In k (dkeys gt) /\ ~ In k (dkeys (fr_cols (c_erf sc)))) ->
  coupled_run nan cp sc th c gt t0 cc0 true carbon r = out -> coupled_run nan cp sc' th c' gt t0 cc0 true carbon' r' = out' ->
  o_exn out = None -> o_exn out' = None -> frames_until M (o_results out) (o_results out') "forcing".
Proof. intros A N T. exact (@c85_f A N T). Qed.
Print Assumptions C85_forcing.
Theorem C85_concentrations : forall (A : Type) (N : Num A) T nan cp (th : thermal A T) gt t0 cc0 M sc sc' c c' carbon carbon' r r' out out',
  agree_until M sc sc' c c' -> wf (fr_cols (c_erf sc)) -> wf (fr_cols (c_erf sc')) ->
  distinct_outputs (t_names th) -> wf gt -> wf (fr_cols (c_pc sc)) -> wf (fr_cols (c_pc sc')) ->
  agree_on (until (nystart (c_p sc) + Z.of_nat M)) (c_pc sc) (c_pc sc') ->
  (forall k, In k (dkeys (fr_cols (c_pc sc))) -> dmem (fr_cols (c_erf sc)) k = true) -> (exists k, In k (dkeys (fr_cols (c_pc sc)))) ->
  ~ In "Year" (dkeys gt ++ dkeys (fr_cols (c_pc sc))) ->
  coupled_run nan cp sc th c gt t0 cc0 true carbon r = out -> coupled_run nan cp sc' th c' gt t0 cc0 true carbon' r' = out' ->
  o_exn out = None -> o_exn out' = None -> frames_until M (o_results out) (o_results out') "concentrations".
Proof. intros A N T. exact (@c85_c A N T). Qed.
Print Assumptions C85_concentrations.
(** Concentrations and forcing computed in advance: up to a year they depend on concentrations, emissions and perturbation rows up to
    that year. Ozone in the stratosphere, too: it is three years behind and compares with the first year. *)
Theorem C85_precalculated : forall (A : Type) (N : Num A) (p : hpam A) gt conc emis pert pc erf conc' emis' pert' pc' erf' M,
  precalculate p gt conc emis pert = Ok (pc, erf) -> precalculate p gt conc' emis' pert' = Ok (pc', erf') -> wf gt ->
  covers conc (nystart p) (nyend p) (ordinary gt) -> covers emis (nystart p) (nyend p) (ordinary gt) ->
  covers conc' (nystart p) (nyend p) (ordinary gt) -> covers emis' (nystart p) (nyend p) (ordinary gt) ->
  conc_run p = true \/ (nyend p <= emstart p)%Z \/ (nystart p < emstart p)%Z -> (nystart p + Z.of_nat M <= nyend p)%Z ->
  agree_on (until (nystart p + Z.of_nat M)) conc conc' -> agree_on (until (nystart p + Z.of_nat M)) emis emis' ->
  (forall z, (z <= nystart p + Z.of_nat M)%Z ->
     filter (fun r => Z.eqb (fst (fst r)) z) (Spec_Forc.pert_rows pert) = filter (fun r => Z.eqb (fst (fst r)) z) (Spec_Forc.pert_rows pert')) ->
  agree_on (until (nystart p + Z.of_nat M)) pc pc' /\ agree_on (until (nystart p + Z.of_nat M)) erf erf'.
Proof. exact @c85_pre. Qed.
Print Assumptions C85_precalculated.
(** So whole runs from agreeing inputs agree, with nothing assumed about what is computed in advance. *)
Theorem C85_from_inputs : forall (A : Type) (N : Num A) T nan cp (th : thermal A T) gt t0 cc0 M sc sc' c c' carbon carbon' r r' out out',
  agree_inputs M sc sc' c c' -> prepared gt sc -> prepared gt sc' -> wf gt ->
  (forall k, In k reserved -> ~ In k (dkeys gt)) -> distinct_outputs (t_names th) ->
  (forall k, In k ["emissions"; "concentrations"; "forcing"; "carbon cycle"] -> ~ In k (output_names (t_names th))) ->
  coupled_run nan cp sc th c gt t0 cc0 true carbon r = out -> coupled_run nan cp sc' th c' gt t0 cc0 true carbon' r' = out' ->
  o_exn out = None -> o_exn out' = None ->
  (forall o, In o (output_names (t_names th)) -> exists v v', in_array (o_results out) o v /\ in_array (o_results out') o v' /\
    List.length v = d_years c /\ List.length v' = d_years c /\ rows_agree M v v') /\
  frames_until M (o_results out) (o_results out') "forcing" /\
  ((exists k, ordinary gt k) -> frames_until M (o_results out) (o_results out') "concentrations").
Proof. intros A N T. exact (@c85_inputs A N T). Qed.
Print Assumptions C85_from_inputs.
(** The arrays of both thermal models are apart from the frames. *)
Theorem C85_models : forall (A : Type) (N : Num A) (p2 : tl_pam A) (pu : ud_pam A) k, In k ["emissions"; "concentrations"; "forcing"; "carbon cycle"] ->
  ~ In k (output_names (t_names (tl_thermal p2))) /\ ~ In k (output_names (t_names (ud_thermal pu))).
Proof.
  intros A N p2 pu k I.
  assert (Q : forall l l' : list string, forallb (fun k => negb (smem k l')) l = true -> In k l -> ~ In k l').
  { intros l l' F J J'. rewrite forallb_forall in F. apply F in J. apply smem_In in J'. rewrite J' in J. discriminate J. }
  split; eapply Q; try exact I; reflexivity.
Qed.
Print Assumptions C85_models.

(** Scenarios that differ in 2001 only: fossil emissions, sulphur, land use forcing. Methane of 2001 in the concentration file and the
    ozone precursors of 2001 are parameters; 2001 is the reference year and TROP_O3 is a gas. *)
Definition kx_late (sulphur fossil ch4 nox : Q) : scenario Q :=
  let p := kx_pams false in
  {| c_p := {| nystart := 2000; nyend := 2001; emstart := 2001; conc_run := false; lifetime_mode := ""; just_one := None; ref_yr := 2001;
       qbmb := qbmb p; qo3 := qo3 p; qdirso2 := qdirso2 p; qindso2 := 0%Q; qbc := 0%Q; qoc := 0%Q; qh2o_ch4 := 0%Q; qnmvoc := 0%Q; qnh3 := 0%Q; qnox := 0%Q;
       cl_dict := []; br_dict := [] |};
     c_conc := Build_frame [2000; 2001]%Z [("CO2", [280; 290]%Q); ("CH4", [700; ch4]%Q); ("N2O", [270; 271]%Q)];
     c_emis := Build_frame [2000; 2001]%Z [("CO2_FF", [8; fossil]%Q); ("CO2_AFOLU", [2; 1]%Q); ("CH4", [1; 1]%Q); ("N2O", [1; 1]%Q); ("SO2", [1; sulphur]%Q);
       ("BC", [1; 2]%Q); ("NOx", [1; nox]%Q); ("CO", [0; 0]%Q); ("NMVOC", [0; 0]%Q)];
     c_nat_ch4 := Build_frame [2000; 2001]%Z [("CH4", [0; 0]%Q)]; c_nat_n2o := Build_frame [2000; 2001]%Z [("N2O", [0; 0]%Q)];
     c_pert := None; c_pc := Build_frame [2000; 2001]%Z [("SF6", [0; 1]%Q)]; c_erf := Build_frame [2000; 2001]%Z [("SF6", [1 / 8; 1 / 4]%Q)] |}.
Definition kx_late_run (sc : scenario Q) : outcome Q (handler Q) :=
  coupled_run (N := QNum) (- 999)%Q kx_cc sc kx_thermal kx_inst (kx_table ++ [("TROP_O3", kx_gas "-" 0 0)]) tt (cc_init (N := QNum) kx_cc) true false [].
Definition kx_shown (o : outcome Q (handler Q)) :=
  (o_exn o, kx_array "dT_glob" o, kx_column "concentrations" "CO2" o, kx_column "concentrations" "TROP_O3" o, kx_column "forcing" "SO4_DIR" o).
Definition kx_first {A} (o : option (list A)) : option A := match o with Some l => nth_error l 0 | None => None end.
Lemma kx_late_agree : agree_until 0 (kx_late 6 9 700 1) (kx_late 7 12 700 1) kx_inst kx_inst.
Proof.
  split; [|split; reflexivity]. constructor; try reflexivity; try (split; reflexivity).
  - unfold d_years. cbn. apply Nat.lt_0_succ.
  - split; [reflexivity|]. intros k z S. unfold fr_get, fr_col. cbn [c_emis kx_late fr_cols fr_index dget].
    destruct (String.eqb_spec "CO2_FF" k) as [<-|_]; [|destruct (String.eqb_spec "CO2_AFOLU" k); [reflexivity|]; destruct (String.eqb_spec "CH4" k); [reflexivity|];
      destruct (String.eqb_spec "N2O" k); [reflexivity|]; destruct (String.eqb_spec "SO2" k) as [<-|_]; [|reflexivity]];
    (cbn [key rbind combine yget]; destruct (Z.eqb_spec 2000 z); [reflexivity|]; destruct (Z.eqb_spec 2001 z) as [<-|_]; [|reflexivity];
     exfalso; destruct S as [S|[S _]]; [apply S; reflexivity|cbn in S; repeat (destruct S as [S|S]; [discriminate S|]); exact S]).
Qed.
(** The year 2000 is the same, 2001 is not. The reference year matters: ozone of 2000 changes with the methane file and with the
    nitrogen oxides of 2001. *)
Example C85_example :
  match kx_shown (kx_late_run (kx_late 6 9 700 1)), kx_shown (kx_late_run (kx_late 7 12 700 1)) with
  | (None, Some [t; u], Some [c; d], Some [o; _], Some [s; w]), (None, Some [t'; u'], Some [c'; d'], Some [o'; _], Some [s'; w']) =>
      (t, c, o, s) = (t', c', o', s') /\ u <> u' /\ d <> d' /\ w <> w'
  | _, _ => False
  end /\
  map (fun sc => kx_first (kx_column "concentrations" "TROP_O3" (kx_late_run sc))) [kx_late 6 9 700 1; kx_late 6 9 701 1; kx_late 6 9 700 2]
    = [Some 30; Some (Qmake 233 10); Some (Qmake 2983 100)]%Q.
Proof.
  split; [|vm_compute; reflexivity]. vm_compute. split; [reflexivity|]. split; [discriminate|]. split; discriminate.
Qed.
(** In advance, for 2000-2004 with emissions used from 2002 on: chlorine in 2003 and a perturbation in 2003 change 2003 and later only;
    a different concentration in 2003 changes nothing, a different one in 2001 reaches the ozone of 2004. *)
Definition kx_advance (cfc01 cfc03 em03 f03 : Q) : option (list (string * list Q) * list (string * list Q)) :=
  let p := kx_pams false in
  let h := {| nystart := 2000; nyend := 2004; emstart := 2002; conc_run := false; lifetime_mode := ""; just_one := None; ref_yr := 2001;
       qbmb := qbmb p; qo3 := qo3 p; qdirso2 := qdirso2 p; qindso2 := 0%Q; qbc := 0%Q; qoc := 0%Q; qh2o_ch4 := 0%Q; qnmvoc := 0%Q; qnh3 := 0%Q; qnox := 0%Q;
       cl_dict := [("CFC-11", 1%Z)]; br_dict := [("CFC-11", 1%Z)] |} in
  let g u a := {| g_unit := u; g_beta := 1%Q; g_alpha := a; g_tau1 := 1%Q; g_tau2 := 0%Q; g_tau3 := 0%Q; g_nat := 0%Q; g_sarf := 1%Q |} in
  match precalculate (N := QNum) h [("CO2", kx_co2); ("CH4", kx_co2); ("N2O", kx_co2); ("CFC-11", g "ppt" 2%Q); ("STRAT_O3", g "-" 0%Q)]
      (Build_frame [1999; 2000; 2001; 2002; 2003; 2004]%Z [("CFC-11", [7; 8; cfc01; 0; cfc03; 0]%Q)])
      (Build_frame [2000; 2001; 2002; 2003; 2004]%Z [("CFC-11", [1; 1; 1; em03; 1]%Q)])
      (Some [(2003%Z, "CFC-11", f03); (2000%Z, "CFC-11", Qmake 1 8)]) with
  | Ok (pc, erf) => Some (fr_cols pc, map (fun cv => (fst cv, map Qred (snd cv))) (fr_cols erf))
  | Err _ => None end.
Definition kx_rows (n : nat) (o : option (list (string * list Q) * list (string * list Q))) :=
  match o with Some (a, b) => Some (map (fun cv => (fst cv, map Qred (firstn n (snd cv)))) a, map (fun cv => (fst cv, map Qred (firstn n (snd cv)))) b) | None => None end.
Example C85_advance_example :
  kx_rows 3 (kx_advance 9 0 1 0) = kx_rows 3 (kx_advance 9 5 2 4) /\ kx_rows 4 (kx_advance 9 0 1 0) <> kx_rows 4 (kx_advance 9 0 2 0) /\
  kx_rows 4 (kx_advance 9 0 1 0) <> kx_rows 4 (kx_advance 9 0 1 4) /\ kx_rows 5 (kx_advance 9 0 1 0) = kx_rows 5 (kx_advance 9 5 1 0) /\
  kx_rows 5 (kx_advance 9 0 1 0) = Some ([("CFC-11", [8; 9; -7; 9; -7]%Q)],
    [("CFC-11", [Qmake 1 8; 2; -30; 2; -30]%Q); ("STRAT_O3", [0; 0; 0; 0; Qmake (-381069) 434425000]%Q)]) /\
  kx_rows 5 (kx_advance 10 0 1 0) = Some ([("CFC-11", [8; 10; -8; 10; -8]%Q)],
    [("CFC-11", [Qmake 1 8; 4; -32; 4; -32]%Q); ("STRAT_O3", [0; 0; 0; 0; Qmake (-381069) 217212500]%Q)]).
Proof. vm_compute. repeat split; try discriminate. Qed.
(** Scenarios whose advance results come from their inputs, differing in 2001 *)
Definition kx_table2 : dict (gas Q) := kx_table ++ [("STRAT_O3", kx_gas "-" 0 0)].
Definition kx_made (sulphur sf6 : Q) : scenario Q :=
  let s := kx_late sulphur 9 700 1 in
  let conc := Build_frame (fr_index (c_conc s)) (("SF6", [2; sf6]%Q) :: fr_cols (c_conc s)) in
  let emis := Build_frame (fr_index (c_emis s)) (("SF6", [1; 1]%Q) :: fr_cols (c_emis s)) in
  let r := match precalculate (N := QNum) (c_p s) kx_table2 conc emis None with Ok r => r | Err _ => (c_pc s, c_erf s) end in
  {| c_p := c_p s; c_conc := conc; c_emis := emis; c_nat_ch4 := c_nat_ch4 s; c_nat_n2o := c_nat_n2o s; c_pert := None; c_pc := fst r; c_erf := snd r |}.
Lemma kx_made_prepared sulphur sf6 : prepared (N := QNum) kx_table2 (kx_made sulphur sf6).
Proof.
  assert (O : forall k, ordinary kx_table2 k -> k = "SF6").
  { intros k [g [I [NM U]]]. cbn in I. repeat (destruct I as [I|I]; [injection I as <- <-; try (exfalso; apply NM; cbn; tauto); try (exfalso; apply U; reflexivity); try reflexivity|]). destruct I. }
  assert (C : forall cs : list (string * list Q), Forall (fun cv => List.length (snd cv) = 2%nat) cs -> forall c v, dget cs c = Some v -> List.length v = 2%nat).
  { intros cs F c v D. apply dget_Some_In in D. rewrite Forall_forall in F. exact (F _ D). }
  constructor.
  - reflexivity.
  - exists 2000%Z, 2%nat. split; [split; [reflexivity|split; [apply Nat.lt_0_succ|apply C; repeat constructor]]|]. split; [discriminate|]. split; [reflexivity|].
    intros k K. apply O in K. subst k. eexists. reflexivity.
  - exists 2000%Z, 2%nat. split; [split; [reflexivity|split; [apply Nat.lt_0_succ|apply C; repeat constructor]]|]. split; [discriminate|]. split; [reflexivity|].
    intros k K. apply O in K. subst k. eexists. reflexivity.
  - right. right. reflexivity.
Qed.
Lemma kx_made_agree : agree_inputs 0 (kx_made 6 4) (kx_made 7 5) kx_inst kx_inst.
Proof.
  constructor; try reflexivity; try (split; reflexivity).
  - unfold d_years. cbn. apply Nat.lt_0_succ.
  - split; [reflexivity|]. intros k z S. unfold fr_get, fr_col. cbn [c_conc kx_made kx_late fr_cols fr_index dget].
    destruct (String.eqb_spec "SF6" k) as [<-|_]; [|reflexivity].
    cbn [key rbind combine yget]. destruct (Z.eqb_spec 2000 z); [reflexivity|]. destruct (Z.eqb_spec 2001 z) as [<-|_]; [|reflexivity].
    exfalso. destruct S as [S|[S _]]; [apply S; reflexivity|discriminate S].
  - split; [reflexivity|]. intros k z S. unfold fr_get, fr_col. cbn [c_emis kx_made kx_late fr_cols fr_index dget].
    destruct (String.eqb_spec "SF6" k); [reflexivity|]; destruct (String.eqb_spec "CO2_FF" k); [reflexivity|]; destruct (String.eqb_spec "CO2_AFOLU" k); [reflexivity|]; destruct (String.eqb_spec "CH4" k); [reflexivity|];
      destruct (String.eqb_spec "N2O" k); [reflexivity|]; destruct (String.eqb_spec "SO2" k) as [<-|_]; [|reflexivity];
    (cbn [key rbind combine yget]; destruct (Z.eqb_spec 2000 z); [reflexivity|]; destruct (Z.eqb_spec 2001 z) as [<-|_]; [|reflexivity];
     exfalso; destruct S as [S|[S _]]; [apply S; reflexivity|cbn in S; repeat (destruct S as [S|S]; [discriminate S|]); exact S]).
Qed.
Definition kx_made_run (sc : scenario Q) : outcome Q (handler Q) :=
  coupled_run (N := QNum) (- 999)%Q kx_cc sc kx_thermal kx_inst kx_table2 tt (cc_init (N := QNum) kx_cc) true false [].
Example C85_inputs_example :
  let shown sc := let o := kx_made_run sc in (o_exn o, kx_array "dT_glob" o, kx_column "concentrations" "SF6" o, kx_column "forcing" "SO4_DIR" o) in
  match shown (kx_made 6 4), shown (kx_made 7 5) with
  | (None, Some [t; u], Some [c; d], Some [s; w]), (None, Some [t'; u'], Some [c'; d'], Some [s'; w']) =>
      (t, c, s) = (t', c', s') /\ u <> u' /\ d <> d' /\ w <> w'
  | _, _ => False
  end.
Proof. vm_compute. split; [reflexivity|]. split; [discriminate|]. split; discriminate. Qed.
