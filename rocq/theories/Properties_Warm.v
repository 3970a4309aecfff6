(** * Properties_Warm: runs that differ in CO2 only: more CO2 never means less forcing or less warming (C109, C110) *)
From Coq Require Import Reals Lra.
From Coq Require FunctionalExtensionality.
From Verif Require Import PyBase PyBaseFacts Num M_Gas M_Forcing M_TwoLayer M_Carbon M_CarbonBox M_Driver M_Results M_BoxRun Spec_Driver Spec_Forc Spec_Reader Spec_Results Spec_Coupled
  Spec_TwoLayer Spec_TwoLayerOrder Spec_Box Spec_Carbon Spec_Warm P_Driver3 P_Box P_Box3 P_Warm3 P_Warm5 P_Warm4 P_Forc5.
From Verif Require M_UDM Spec_UDMRuns P_UDM6 P_UDM10.
Open Scope R_scope.

(** ** C109 *)
(** [any_run] is a run with any carbon cycle; [coupled_run] and [box_coupled_run] are the two built-in ones. *)
Theorem C109_forcing : forall nan CC CC' year year' data data' sc sc' c gt (cc0 : CC) (cc0' : CC') T T' (th : thermal R T) (th' : thermal R T') t0 t0' carbon carbon' r r' out out' M co2 co2' n2o g,
  but_for_co2 sc sc' -> plain_table gt (c_erf sc) (c_pc sc) -> d_rf c = None -> d_start c = nystart (c_p sc) -> d_end c = nyend (c_p sc) ->
  distinct_outputs (t_names th) -> distinct_outputs (t_names th') ->
  (forall o, In o (output_names (t_names th) ++ output_names (t_names th')) -> ~ In o ["emissions"; "concentrations"; "forcing"; "carbon cycle"]) ->
  any_run nan CC year data sc th c gt t0 cc0 true carbon r = out -> any_run nan CC' year' data' sc' th' c gt t0' cc0' true carbon' r' = out' ->
  o_exn out = None -> o_exn out' = None ->
  in_frame (o_results out) "concentrations" "CO2" co2 -> in_frame (o_results out') "concentrations" "CO2" co2' -> in_frame (o_results out) "concentrations" "N2O" n2o ->
  more_co2 M co2 co2' n2o -> dget gt "CO2" = Some g ->
  exists f f', in_array (o_results out) "Total_forcing" f /\ in_array (o_results out') "Total_forcing" f' /\ List.length f = d_years c /\ List.length f' = d_years c /\
    forall k x x', (k <= M)%nat -> nth_error f k = Some x -> nth_error f' k = Some x' ->
    exists v v', nth_error co2 k = Some v /\ nth_error co2' k = Some v' /\ 0 <= 4 / 10 ^ 4 * g_sarf g * (v' - v) <= x' - x.
Proof. intros nan CC CC' year year' data data' sc sc' c gt cc0 cc0' T T' th th' t0 t0' carbon carbon' r r' out out' M co2 co2' n2o g BF PT RF DS DE. eapply c109_forcing; eassumption. Qed.
Print Assumptions C109_forcing.
(** With the two-layer ocean, every shown temperature and heat content. *)
Theorem C109_warming : forall nan CC CC' year year' data data' sc sc' c gt (cc0 : CC) (cc0' : CC') tp carbon carbon' r r' out out' M co2 co2' n2o,
  but_for_co2 sc sc' -> plain_table gt (c_erf sc) (c_pc sc) -> d_rf c = None -> d_start c = nystart (c_p sc) -> d_end c = nyend (c_p sc) ->
  any_run nan CC year data sc (tl_thermal tp) c gt (tl_init tp) cc0 true carbon r = out -> any_run nan CC' year' data' sc' (tl_thermal tp) c gt (tl_init tp) cc0' true carbon' r' = out' ->
  o_exn out = None -> o_exn out' = None ->
  in_frame (o_results out) "concentrations" "CO2" co2 -> in_frame (o_results out') "concentrations" "CO2" co2' -> in_frame (o_results out) "concentrations" "N2O" n2o ->
  more_co2 M co2 co2' n2o -> calm_ocean tp ->
  (forall k vn vs, (k <= M)%nat -> nth_error (d_vn c) k = Some vn -> nth_error (d_vs c) k = Some vs -> List.length vn = List.length vs) ->
  forall o, In o ["dT_glob"; "OHC_MIXED"; "OHC_DEEP"; "OHC700"; "OHCTOT"; "dT_fast"; "dT_slow"] ->
  exists w w', in_array (o_results out) o w /\ in_array (o_results out') o w' /\ List.length w = d_years c /\ upto_le M w w'.
Proof. intros nan CC CC' year year' data data' sc sc' c gt cc0 cc0' tp carbon carbon' r r' out out' M co2 co2' n2o BF PT RF DS DE. eapply c109_warming; eassumption. Qed.
Print Assumptions C109_warming.
(** With the upwelling-diffusion ocean and constant upwelling, every temperature of both halves of the globe and both heat contents. *)
Theorem C109_warming_upwelling : forall nan CC CC' year year' data data' sc sc' c gt (cc0 : CC) (cc0' : CC') up carbon carbon' r r' out out' M co2 co2' n2o,
  but_for_co2 sc sc' -> plain_table gt (c_erf sc) (c_pc sc) -> d_rf c = None -> d_start c = nystart (c_p sc) -> d_end c = nyend (c_p sc) ->
  any_run nan CC year data sc (ud_thermal up) c gt (M_UDM.ud_init up) cc0 true carbon r = out -> any_run nan CC' year' data' sc' (ud_thermal up) c gt (M_UDM.ud_init up) cc0' true carbon' r' = out' ->
  o_exn out = None -> o_exn out' = None ->
  in_frame (o_results out) "concentrations" "CO2" co2 -> in_frame (o_results out') "concentrations" "CO2" co2' -> in_frame (o_results out) "concentrations" "N2O" n2o ->
  more_co2 M co2 co2' n2o -> calm_upwelling up ->
  forall o, In o ["dT_glob"; "dT_NH"; "dT_SH"; "dT_glob_air"; "dT_NH_air"; "dT_SH_air"; "dT_glob_sea"; "dT_NH_sea"; "dT_SHsea"; "OHC700"; "OHCTOT"] ->
  exists w w', in_array (o_results out) o w /\ in_array (o_results out') o w' /\ List.length w = d_years c /\ upto_le M w w'.
Proof. intros nan CC CC' year year' data data' sc sc' c gt cc0 cc0' up carbon carbon' r r' out out' M co2 co2' n2o BF PT RF DS DE. eapply c109_upwelling; eassumption. Qed.
Print Assumptions C109_warming_upwelling.

(** For the examples: 2000 and 2001, concentrations given or from emissions; CO2 starts with 280 ppm or with the emissions 10 PgC. *)
Definition vx_pams (crun : bool) : hpam R :=
  {| nystart := 2000; nyend := 2001; emstart := 2002; conc_run := crun; lifetime_mode := ""; just_one := None; ref_yr := 2000;
     qbmb := 0; qo3 := 0; qdirso2 := 0; qindso2 := 0; qbc := 0; qoc := 0; qh2o_ch4 := 0; qnmvoc := 0; qnh3 := 0; qnox := 0;
     cl_dict := []; br_dict := [] |}.
Definition vx_gas (u : string) : gas R :=
  {| g_unit := u; g_beta := 1; g_alpha := 0; g_tau1 := 1; g_tau2 := 0; g_tau3 := 0; g_nat := 0; g_sarf := 1 |}.
Definition vx_table : dict (gas R) := [("CO2", vx_gas "ppm"); ("CH4", vx_gas "ppb"); ("N2O", vx_gas "ppb"); ("SF6", vx_gas "ppt")].
Definition vx_scenario (crun : bool) (conc fossil : R) : scenario R :=
  {| c_p := vx_pams crun;
     c_conc := Build_frame [2000; 2001]%Z [("CO2", [280; conc]); ("CH4", [700; 701]); ("N2O", [270; 271])];
     c_emis := Build_frame [2000; 2001; 2002]%Z [("CO2_FF", [8; fossil; 1]); ("CO2_AFOLU", [2; 1; 1]); ("CH4", [1; 1; 1]); ("N2O", [1; 1; 1])];
     c_nat_ch4 := Build_frame [2000; 2001]%Z [("CH4", [0; 0])]; c_nat_n2o := Build_frame [2000; 2001]%Z [("N2O", [0; 0])];
     c_pert := None; c_pc := Build_frame [2000; 2001]%Z [("SF6", [0; 1])]; c_erf := Build_frame [2000; 2001]%Z [("SF6", [1 / 8; 1 / 4])] |}.
Definition vx_inst : inst R :=
  {| d_start := 2000; d_end := 2001; d_rf := None; d_sun := [1 / 2; 0]; d_luc := [0; 0]; d_vn := [[0]; [0]]; d_vs := [[0]; [0]] |}.
Definition vx_box : box_pam R :=
  {| b_beta_f := 2; b_land_sens := 0; b_soil_rate := 2 / 100; b_mld := 100; b_exchange := 1 / 10; b_veg_frac := 1 / 10; b_sol_base := 1 / 50; b_sol_coeff := 0; b_idtm := 24; b_preind := 278 |}.
Definition vx_run (crun : bool) (conc fossil : R) : outcome R (box_state R * hst R) :=
  box_coupled_run (- 999) vx_box (vx_scenario crun conc fossil) (tl_thermal tl_default) vx_inst vx_table (tl_init tl_default) true false [].

Lemma vx_column (r : results R) f k v : match dget r f with Some (Fr fr) => dget (fr_cols fr) k | _ => None end = Some v -> in_frame r f k v.
Proof. unfold in_frame. destruct (dget r f) as [[l|fr]|]; try discriminate. eauto. Qed.
Lemma vx_differ crun c c' f f' : but_for_co2 (vx_scenario crun c f) (vx_scenario crun c' f').
Proof.
  constructor; try reflexivity.
  - split; [reflexivity|]. intros k z K. unfold fr_get, fr_col. cbn [c_conc vx_scenario fr_cols fr_index dget]. destruct (String.eqb_spec "CO2" k) as [<-|_]; [destruct (K eq_refl)|]. reflexivity.
  - split; [reflexivity|]. intros k z K. unfold fr_get, fr_col. cbn [c_emis vx_scenario fr_cols fr_index dget]. destruct (String.eqb_spec "CO2_FF" k) as [<-|_]; [destruct K; left; reflexivity|]. reflexivity.
Qed.
Lemma vx_plain crun c f : plain_table vx_table (c_erf (vx_scenario crun c f)) (c_pc (vx_scenario crun c f)).
Proof.
  constructor.
  - repeat constructor; cbn; intuition discriminate.
  - cbn. repeat split; intuition discriminate.
  - reflexivity.
  - intros k [<-|[<-|[]]]; (split; [eexists; split; [reflexivity|cbn; discriminate]|reflexivity]).
  - cbn. intros gc gn E E'. injection E as <-. injection E' as <-. cbn. lra.
  - cbn. split; [repeat constructor; cbn; intuition discriminate|]. split; [eexists; left; reflexivity|]. intros k [<-|[]]. reflexivity.
Qed.
Lemma vx_calm : calm_ocean tl_default.
Proof.
  constructor; [reflexivity|unfold tl_default; cbn [tl_k]; rnum; lra|unfold tl_default; cbn [tl_foan tl_foas]; rnum; lra|]. intros i.
  constructor; unfold year_feedback, capacity, tl_default; cbn [tl_lambda tl_k tl_eff tl_mixed tl_deep tl_delta]; rnum; try lra.
Qed.

(** 300 and 400 ppm in 2001: the second run has at least 0.04 W/m2 more; and in a run to 300 ppm nothing is warmer than in a run to 400 ppm. *)
Example C109_example : let lower := vx_run true 300 9 in let higher := vx_run true 400 9 in
  (o_exn lower, o_exn higher) = (None, None) /\
  (exists f f', in_array (o_results lower) "Total_forcing" f /\ in_array (o_results higher) "Total_forcing" f' /\ List.length f = 2%nat /\
    forall x x', nth_error f 1 = Some x -> nth_error f' 1 = Some x' -> x + 4 / 100 <= x') /\
  exists w w', in_array (o_results lower) "dT_glob" w /\ in_array (o_results higher) "dT_glob" w' /\ List.length w = 2%nat /\ upto_le 1 w w'.
Proof.
  cbv zeta. split; [vm_compute; reflexivity|].
  assert (MO : more_co2 1 [280; 300] [280; 400] [270; 271]).
  { constructor.
    - exists 280. split; [reflexivity|]. split; [reflexivity|]. split; [lra|]. intros [|[|k]] v v' L E E'; [| |lia]; cbn in E, E'; injection E as <-; injection E' as <-; (split; [lra|]); split; apply Rabs_le; lra.
    - intros [|[|k]] n L E; [| |lia]; cbn in E; injection E as <-; lra. }
  assert (C1 : in_frame (o_results (vx_run true 300 9)) "concentrations" "CO2" [280; 300]) by (apply vx_column; vm_compute; reflexivity).
  assert (C2 : in_frame (o_results (vx_run true 400 9)) "concentrations" "CO2" [280; 400]) by (apply vx_column; vm_compute; reflexivity).
  assert (C3 : in_frame (o_results (vx_run true 300 9)) "concentrations" "N2O" [270; 271]) by (apply vx_column; vm_compute; reflexivity).
  assert (X : o_exn (vx_run true 300 9) = None) by (vm_compute; reflexivity). assert (X' : o_exn (vx_run true 400 9) = None) by (vm_compute; reflexivity).
  set (YR := fun (s : box_state R) (_ : nat) em dt => box_year vx_box s em dt). set (DA := box_data (- 999) vx_box (vx_scenario true 300 9)). set (DB := box_data (- 999) vx_box (vx_scenario true 400 9)).
  assert (E0 : any_run (- 999) (box_state R) YR DA (vx_scenario true 300 9) (tl_thermal tl_default) vx_inst vx_table (tl_init tl_default) box_init true false [] = vx_run true 300 9) by (unfold vx_run, box_coupled_run; reflexivity).
  assert (E0' : any_run (- 999) (box_state R) YR DB (vx_scenario true 400 9) (tl_thermal tl_default) vx_inst vx_table (tl_init tl_default) box_init true false [] = vx_run true 400 9) by (unfold vx_run, box_coupled_run; reflexivity).
  split.
  - assert (NO : forall q, In q (output_names tl_names ++ output_names tl_names) -> ~ In q ["emissions"; "concentrations"; "forcing"; "carbon cycle"]).
    { intros q I. apply in_app_iff in I. assert (J : In q (output_names tl_names)) by (destruct I; assumption). cbn in J. repeat (destruct J as [<-|J]; [intros [K|[K|[K|[K|[]]]]]; discriminate K|]). destruct J. }
    destruct (C109_forcing (- 999) _ _ YR YR DA DB _ _ vx_inst vx_table box_init box_init _ _ (tl_thermal tl_default) (tl_thermal tl_default) (tl_init tl_default) (tl_init tl_default) false false [] [] _ _ 1%nat _ _ _ (vx_gas "ppm")
      (vx_differ true 300 400 9 9) (vx_plain true 300 9) eq_refl eq_refl eq_refl tl_distinct tl_distinct NO E0 E0' X X' C1 C2 C3 MO eq_refl) as (f & f' & F1 & F2 & F3 & F4 & F5).
    exists f, f'. split; [exact F1|]. split; [exact F2|]. split; [exact F3|]. intros x x' E E'. destruct (F5 1%nat x x' ltac:(lia) E E') as (v & v' & V & V' & H). cbn in V, V', H. injection V as <-. injection V' as <-. lra.
  - refine (C109_warming (- 999) _ _ YR YR DA DB _ _ vx_inst vx_table box_init box_init tl_default false false [] [] _ _ 1%nat _ _ _ (vx_differ true 300 400 9 9) (vx_plain true 300 9) eq_refl eq_refl eq_refl E0 E0' X X' C1 C2 C3 MO vx_calm _ "dT_glob" _); try reflexivity; [|left; reflexivity].
    intros [|[|k]] vn vs L E E'; [| |lia]; cbn in E, E'; injection E as <-; injection E' as <-; reflexivity.
Qed.
(** The same two scenarios with the upwelling-diffusion ocean, default parameters but constant upwelling. *)
Definition vx_up : M_UDM.ud_pam R := Spec_UDMRuns.with_thr M_UDM.ud_default 0.
Lemma vx_calm_up : calm_upwelling vx_up.
Proof.
  constructor; try reflexivity.
  - destruct P_UDM10.default_admissible. constructor; assumption.
  - destruct P_UDM10.default_stable. constructor; try assumption. apply Rle_refl.
  - unfold vx_up, M_UDM.ud_default, Spec_UDMRuns.with_thr; cbn. rnum. lra.
  - unfold vx_up, M_UDM.ud_default, Spec_UDMRuns.with_thr; cbn. rnum. lra.
  - unfold vx_up, M_UDM.ud_default, Spec_UDMRuns.with_thr; cbn. lia.
Qed.
Definition vx_run_up (crun : bool) (conc fossil : R) : outcome R (box_state R * hst R) :=
  box_coupled_run (- 999) vx_box (vx_scenario crun conc fossil) (ud_thermal vx_up) vx_inst vx_table (M_UDM.ud_init vx_up) true false [].
(** what an ocean that never fails leaves to compute *)
Definition vx_ocean (T : Type) (Y : T -> tl_in R -> T * M_UDM.ud_out R) (H : T -> tl_in R -> R) : thermal R T :=
  {| t_names := ud_names; t_year := fun s i => Ok (fst (Y s i), ud_values (snd (Y s i)) (H s i)) |}.
Lemma vx_up_ocean : exists H, ud_thermal vx_up = vx_ocean _ (M_UDM.ud_year vx_up) H.
Proof.
  exists (fun s i => ohc_shown (snd (M_UDM.ud_year vx_up s i))). unfold ud_thermal, vx_ocean. f_equal. apply FunctionalExtensionality.functional_extensionality. intros s.
  apply FunctionalExtensionality.functional_extensionality. intros i. assert (E := year_ohc vx_up s i). destruct (M_UDM.ud_year vx_up s i) as [s' o]. cbn [fst snd] in *. unfold ohc_shown. rewrite E.
  destruct vx_calm_up as [AD _ _ _ _ MI LM]. destruct AD. rewrite P_UDM6.ohc700_exact by (lra || exact LM). reflexivity.
Qed.
Example C109_upwelling_example : let lower := vx_run_up true 300 9 in let higher := vx_run_up true 400 9 in
  (o_exn lower, o_exn higher) = (None, None) /\
  forall o, In o ["dT_glob"; "dT_NH"; "dT_SH"; "OHC700"; "OHCTOT"] ->
  exists w w', in_array (o_results lower) o w /\ in_array (o_results higher) o w' /\ List.length w = 2%nat /\ upto_le 1 w w'.
Proof.
  cbv zeta. destruct vx_up_ocean as [H UO].
  assert (X : o_exn (vx_run_up true 300 9) = None) by (unfold vx_run_up; rewrite UO; generalize (M_UDM.ud_year vx_up) (M_UDM.ud_init vx_up); intros; vm_compute; reflexivity).
  assert (X' : o_exn (vx_run_up true 400 9) = None) by (unfold vx_run_up; rewrite UO; generalize (M_UDM.ud_year vx_up) (M_UDM.ud_init vx_up); intros; vm_compute; reflexivity).
  split; [rewrite X, X'; reflexivity|].
  assert (MO : more_co2 1 [280; 300] [280; 400] [270; 271]).
  { constructor.
    - exists 280. split; [reflexivity|]. split; [reflexivity|]. split; [lra|]. intros [|[|k]] v v' L E E'; [| |lia]; cbn in E, E'; injection E as <-; injection E' as <-; (split; [lra|]); split; apply Rabs_le; lra.
    - intros [|[|k]] n L E; [| |lia]; cbn in E; injection E as <-; lra. }
  assert (C1 : in_frame (o_results (vx_run_up true 300 9)) "concentrations" "CO2" [280; 300]) by (apply vx_column; unfold vx_run_up; rewrite UO; generalize (M_UDM.ud_year vx_up) (M_UDM.ud_init vx_up); intros; vm_compute; reflexivity).
  assert (C2 : in_frame (o_results (vx_run_up true 400 9)) "concentrations" "CO2" [280; 400]) by (apply vx_column; unfold vx_run_up; rewrite UO; generalize (M_UDM.ud_year vx_up) (M_UDM.ud_init vx_up); intros; vm_compute; reflexivity).
  assert (C3 : in_frame (o_results (vx_run_up true 300 9)) "concentrations" "N2O" [270; 271]) by (apply vx_column; unfold vx_run_up; rewrite UO; generalize (M_UDM.ud_year vx_up) (M_UDM.ud_init vx_up); intros; vm_compute; reflexivity).
  clear H UO. set (YR := fun (s : box_state R) (_ : nat) em dt => box_year vx_box s em dt). set (DA := box_data (- 999) vx_box (vx_scenario true 300 9)). set (DB := box_data (- 999) vx_box (vx_scenario true 400 9)).
  assert (E0 : any_run (- 999) (box_state R) YR DA (vx_scenario true 300 9) (ud_thermal vx_up) vx_inst vx_table (M_UDM.ud_init vx_up) box_init true false [] = vx_run_up true 300 9) by (unfold vx_run_up, box_coupled_run; reflexivity).
  assert (E0' : any_run (- 999) (box_state R) YR DB (vx_scenario true 400 9) (ud_thermal vx_up) vx_inst vx_table (M_UDM.ud_init vx_up) box_init true false [] = vx_run_up true 400 9) by (unfold vx_run_up, box_coupled_run; reflexivity).
  intros o I.
  refine (C109_warming_upwelling (- 999) _ _ YR YR DA DB _ _ vx_inst vx_table box_init box_init vx_up false false [] [] _ _ 1%nat _ _ _ (vx_differ true 300 400 9 9) (vx_plain true 300 9) eq_refl eq_refl eq_refl E0 E0' X X' C1 C2 C3 MO vx_calm_up o _).
  cbn [In] in I |- *. tauto.
Qed.
(** The range of the formula is needed: from 280 ppm, 7000 ppm forces less than 300 ppm. *)
Example C109_range_needed : rf_co2 280 7000 270 271 < 0 < rf_co2 280 300 270 271.
Proof. split; [apply c47_negative; lra|]. apply c47_sign; try lra. rewrite Rabs_pos_eq; lra. Qed.

(** ** C110 *)
(** CO2 emissions decide, with the box carbon cycle and the two-layer ocean coupled: the warming of each year enters the carbon cycle of the next. *)
Theorem C110_more_emissions : forall nan bp sc sc' c gt tp carbon carbon' r r' out out' co2 co2' n2o temp c0,
  but_for_co2 sc sc' -> plain_table gt (c_erf sc) (c_pc sc) -> d_rf c = None -> d_start c = nystart (c_p sc) -> d_end c = nyend (c_p sc) ->
  conc_run (c_p sc) = false -> emits_more sc sc' (d_years c) ->
  shares bp -> b_land_sens bp = 0 -> 0 <= b_sol_base bp -> b_sol_coeff bp <= 0 -> calm_ocean tp ->
  (forall k vn vs, nth_error (d_vn c) k = Some vn -> nth_error (d_vs c) k = Some vs -> List.length vn = List.length vs) ->
  box_coupled_run nan bp sc (tl_thermal tp) c gt (tl_init tp) true carbon r = out -> box_coupled_run nan bp sc' (tl_thermal tp) c gt (tl_init tp) true carbon' r' = out' ->
  o_exn out = None -> o_exn out' = None ->
  in_frame (o_results out) "concentrations" "CO2" co2 -> in_frame (o_results out') "concentrations" "CO2" co2' -> in_frame (o_results out) "concentrations" "N2O" n2o ->
  in_array (o_results out) "dT_glob" temp ->
  nth_error co2 0 = Some c0 -> c0 <= 1500 -> (forall v, In v co2 -> 278 <= v) -> (forall v, In v co2' -> v <= c0 + 1500) -> (forall v, In v n2o -> 0 <= v <= 1000) ->
  (forall k, (k < d_years c)%nat -> tame bp 278 (last_year temp k)) ->
  upto_le (d_years c) co2 co2' /\
  forall o, In o ["Total_forcing"; "dT_glob"; "OHC_MIXED"; "OHC_DEEP"; "OHC700"; "OHCTOT"; "dT_fast"; "dT_slow"] ->
  exists w w', in_array (o_results out) o w /\ in_array (o_results out') o w' /\ List.length w = d_years c /\ upto_le (d_years c) w w'.
Proof. intros nan bp sc sc' c gt tp carbon carbon' r r' out out' co2 co2' n2o temp c0 BF PT RF DS DE CR EM SH LS SB SC CA VV. exact (c110_two_layer nan bp sc sc' c gt BF PT RF DS DE CR EM SH LS SB SC tp carbon carbon' r r' out out' co2 co2' n2o temp c0 CA VV). Qed.
Print Assumptions C110_more_emissions.
Theorem C110_more_emissions_upwelling : forall nan bp sc sc' c gt up carbon carbon' r r' out out' co2 co2' n2o temp c0,
  but_for_co2 sc sc' -> plain_table gt (c_erf sc) (c_pc sc) -> d_rf c = None -> d_start c = nystart (c_p sc) -> d_end c = nyend (c_p sc) ->
  conc_run (c_p sc) = false -> emits_more sc sc' (d_years c) ->
  shares bp -> b_land_sens bp = 0 -> 0 <= b_sol_base bp -> b_sol_coeff bp <= 0 -> calm_upwelling up ->
  box_coupled_run nan bp sc (ud_thermal up) c gt (M_UDM.ud_init up) true carbon r = out -> box_coupled_run nan bp sc' (ud_thermal up) c gt (M_UDM.ud_init up) true carbon' r' = out' ->
  o_exn out = None -> o_exn out' = None ->
  in_frame (o_results out) "concentrations" "CO2" co2 -> in_frame (o_results out') "concentrations" "CO2" co2' -> in_frame (o_results out) "concentrations" "N2O" n2o ->
  in_array (o_results out) "dT_glob" temp ->
  nth_error co2 0 = Some c0 -> c0 <= 1500 -> (forall v, In v co2 -> 278 <= v) -> (forall v, In v co2' -> v <= c0 + 1500) -> (forall v, In v n2o -> 0 <= v <= 1000) ->
  (forall k, (k < d_years c)%nat -> tame bp 278 (last_year temp k)) ->
  upto_le (d_years c) co2 co2' /\
  forall o, In o ["Total_forcing"; "dT_glob"; "dT_NH"; "dT_SH"; "dT_glob_air"; "dT_NH_air"; "dT_SH_air"; "dT_glob_sea"; "dT_NH_sea"; "dT_SHsea"; "OHC700"; "OHCTOT"] ->
  exists w w', in_array (o_results out) o w /\ in_array (o_results out') o w' /\ List.length w = d_years c /\ upto_le (d_years c) w w'.
Proof. intros nan bp sc sc' c gt up carbon carbon' r r' out out' co2 co2' n2o temp c0 BF PT RF DS DE CR EM SH LS SB SC CA. exact (c110_upwelling nan bp sc sc' c gt BF PT RF DS DE CR EM SH LS SB SC up carbon carbon' r r' out out' co2 co2' n2o temp c0 CA). Qed.
Print Assumptions C110_more_emissions_upwelling.

Lemma vx_boxes e0 e1 t : e0 = 10 -> 0 <= e1 <= 60 -> exists c1, snd (box_run vx_box box_init [(e0, 0); (e1, t)]) = [278 + 10 / pgc; c1] /\ 278 <= c1 <= 400.
Proof.
  intros -> L. cbn [box_run]. destruct (box_step vx_box box_init 10 0) as (B1 & B2 & B3 & _ & _ & B6).
  destruct (box_year vx_box box_init 10 0) as [s1 v1]. cbn [fst snd] in *.
  destruct (box_step vx_box s1 e1 t) as (C1 & _ & _ & _ & _ & C6). destruct (box_year vx_box s1 e1 t) as [s2 v2]. cbn [fst snd] in *. subst v1 v2.
  assert (G : pgc = 2123 / 1000) by reflexivity || (unfold pgc; lra).
  unfold production, ocean_rate, vx_box, box_init in *. cbn [b_beta_f b_land_sens b_soil_rate b_exchange b_veg_frac b_sol_base b_sol_coeff atm veg soil omix odeep] in *. rnum. rewrite G in *.
  replace (278 / 278) with 1 in * by lra. rewrite ln_1 in *. rewrite (Rmax_right 0 (60 + 2 * 0 - 0 * 0)) in * by lra.
  assert (Y : atm s1 = 278 + 10 / (2123 / 1000)) by (rewrite B1; field_simplify; lra).
  assert (LN : 0 <= ln (atm s1 / 278) <= 2 / 100).
  { split; [rewrite <- ln_1; left; apply ln_increasing; rewrite ?Y; lra|]. apply Rle_trans with (atm s1 / 278 - 1); [|rewrite Y; lra].
    assert (Q := exp_ineq1_le (ln (atm s1 / 278))). rewrite exp_ln in Q by (rewrite Y; lra). lra. }
  rewrite Rmax_right in C1 by lra. exists (atm s2). rewrite Y in *. split; [reflexivity|]. rewrite C1, B3. lra.
Qed.
Lemma vx_series f : 0 <= f <= 50 -> exists t c1, in_array (o_results (vx_run false 0 f)) "dT_glob" t /\ in_frame (o_results (vx_run false 0 f)) "concentrations" "CO2" [278 + 10 / pgc; c1] /\ 278 <= c1 <= 400.
Proof.
  intros Lf. assert (X : o_exn (vx_run false 0 f) = None) by (vm_compute; reflexivity). assert (PT := vx_plain false 0 f).
  destruct (c93_co2 (- 999) vx_box (vx_scenario false 0 f) (tl_thermal tl_default) vx_inst vx_table (tl_init tl_default) false [] (vx_run false 0 f) (vx_gas "ppm") eq_refl eq_refl eq_refl eq_refl tl_distinct eq_refl
    (pt_wf _ _ _ PT) eq_refl ltac:(cbn; discriminate) eq_refl (proj1 (pt_pc _ _ _ PT)) (proj2 (proj2 (pt_pc _ _ _ PT))) (proj1 (proj2 (pt_pc _ _ _ PT))) (proj2 (proj2 (pt_names _ _ _ PT))) eq_refl X) as (temp & ins & A1 & _ & [I1 I2] & A4 & _).
  destruct (I2 0%nat ltac:(cbn; lia)) as (ff & af & F1 & F2 & F3). destruct (I2 1%nat ltac:(cbn; lia)) as (ff1 & af1 & G1 & G2 & G3).
  cbn in F1, F2, G1, G2. injection F1 as <-. injection F2 as <-. injection G1 as <-. injection G2 as <-.
  destruct ins as [|i0 [|i1 [|]]]; try discriminate I1. cbn in F3, G3. injection F3 as ->. injection G3 as ->.
  destruct (vx_boxes (8 + 2 + 0) (f + 1 + 0) (nth 0 temp 0) ltac:(lra) ltac:(lra)) as (c1 & E & L). rnum. rewrite E in A4. exists temp, c1. split; [exact A1|]. split; [exact A4|exact L].
Qed.
(** 9 and 20 PgC of fossil fuels in 2001 *)
Example C110_example : let lower := vx_run false 0 9 in let higher := vx_run false 0 20 in
  (o_exn lower, o_exn higher) = (None, None) /\
  exists c1 c1' w w', in_frame (o_results lower) "concentrations" "CO2" [278 + 10 / pgc; c1] /\ in_frame (o_results higher) "concentrations" "CO2" [278 + 10 / pgc; c1'] /\ c1 <= c1' /\
    in_array (o_results lower) "dT_glob" w /\ in_array (o_results higher) "dT_glob" w' /\ List.length w = 2%nat /\ upto_le 2 w w'.
Proof.
  cbv zeta. split; [vm_compute; reflexivity|].
  destruct (vx_series 9 ltac:(lra)) as (t & c1 & TA & C1 & L1). destruct (vx_series 20 ltac:(lra)) as (t' & c1' & _ & C1' & L1').
  assert (G : pgc = 2123 / 1000) by reflexivity || (unfold pgc; lra).
  assert (N2 : in_frame (o_results (vx_run false 0 9)) "concentrations" "N2O" [270; 271]) by (apply vx_column; vm_compute; reflexivity).
  assert (X : o_exn (vx_run false 0 9) = None) by (vm_compute; reflexivity). assert (X' : o_exn (vx_run false 0 20) = None) by (vm_compute; reflexivity).
  assert (E0 : box_coupled_run (- 999) vx_box (vx_scenario false 0 9) (tl_thermal tl_default) vx_inst vx_table (tl_init tl_default) true false [] = vx_run false 0 9) by (unfold vx_run; reflexivity).
  assert (E0' : box_coupled_run (- 999) vx_box (vx_scenario false 0 20) (tl_thermal tl_default) vx_inst vx_table (tl_init tl_default) true false [] = vx_run false 0 20) by (unfold vx_run; reflexivity).
  assert (EM : emits_more (vx_scenario false 0 9) (vx_scenario false 0 20) 2).
  { intros [|[|k]] ff af ff' af' L y; [| |lia]; cbn; intros Q1 Q2 Q3 Q4; injection Q1 as <-; injection Q2 as <-; injection Q3 as <-; injection Q4 as <-; (split; [lra|intros K; try discriminate K; lra]). }
  assert (SH : shares vx_box) by (constructor; cbn; lra).
  assert (VV : forall k vn vs, nth_error (d_vn vx_inst) k = Some vn -> nth_error (d_vs vx_inst) k = Some vs -> List.length vn = List.length vs).
  { intros [|[|k]] vn vs Q Q'; cbn in Q, Q'; [| |destruct k; discriminate Q]; injection Q as <-; injection Q' as <-; reflexivity. }
  assert (TM : forall k, (k < 2)%nat -> tame vx_box 278 (last_year t k)).
  { intros k _. unfold tame, ocean_rate. rewrite G. cbn [b_beta_f b_sol_base b_sol_coeff vx_box]. rewrite Rmult_0_l. lra. }
  destruct (C110_more_emissions (- 999) vx_box _ _ vx_inst vx_table tl_default false false [] [] _ _ _ _ _ t (278 + 10 / pgc) (vx_differ false 0 0 9 20) (vx_plain false 0 9) eq_refl eq_refl eq_refl eq_refl EM SH eq_refl ltac:(cbn; lra) ltac:(cbn; lra) vx_calm VV
    E0 E0' X X' C1 C1' N2 TA eq_refl) as [D W].
  - rewrite G. lra.
  - rewrite G. intros v [<-|[<-|[]]]; lra.
  - rewrite G. intros v [<-|[<-|[]]]; lra.
  - intros v [<-|[<-|[]]]; lra.
  - exact TM.
  - destruct (W "dT_glob" ltac:(right; left; reflexivity)) as (w & w' & W1 & W2 & W3 & W4). exists c1, c1', w, w'. split; [exact C1|]. split; [exact C1'|].
    split; [destruct D as [_ D]; apply (D 1%nat); [cbn; lia|reflexivity|reflexivity]|]. split; [exact W1|]. split; [exact W2|]. split; [exact W3|exact W4].
Qed.
Lemma vx_up_series f : 0 <= f <= 50 -> o_exn (vx_run_up false 0 f) = None /\
  exists t c1, in_array (o_results (vx_run_up false 0 f)) "dT_glob" t /\ in_frame (o_results (vx_run_up false 0 f)) "concentrations" "CO2" [278 + 10 / pgc; c1] /\ 278 <= c1 <= 400.
Proof.
  intros Lf. assert (PT := vx_plain false 0 f).
  assert (X : o_exn (vx_run_up false 0 f) = None) by (destruct vx_up_ocean as [H UO]; unfold vx_run_up; rewrite UO; generalize (M_UDM.ud_year vx_up) (M_UDM.ud_init vx_up); intros; vm_compute; reflexivity).
  split; [exact X|].
  destruct (c93_co2 (- 999) vx_box (vx_scenario false 0 f) (ud_thermal vx_up) vx_inst vx_table (M_UDM.ud_init vx_up) false [] (vx_run_up false 0 f) (vx_gas "ppm") eq_refl eq_refl eq_refl eq_refl ud_distinct eq_refl
    (pt_wf _ _ _ PT) eq_refl ltac:(cbn; discriminate) eq_refl (proj1 (pt_pc _ _ _ PT)) (proj2 (proj2 (pt_pc _ _ _ PT))) (proj1 (proj2 (pt_pc _ _ _ PT))) (proj2 (proj2 (pt_names _ _ _ PT))) eq_refl X) as (temp & ins & A1 & _ & [I1 I2] & A4 & _).
  destruct (I2 0%nat ltac:(cbn; lia)) as (ff & af & F1 & F2 & F3). destruct (I2 1%nat ltac:(cbn; lia)) as (ff1 & af1 & G1 & G2 & G3).
  cbn in F1, F2, G1, G2. injection F1 as <-. injection F2 as <-. injection G1 as <-. injection G2 as <-.
  destruct ins as [|i0 [|i1 [|]]]; try discriminate I1. cbn in F3, G3. injection F3 as ->. injection G3 as ->.
  destruct (vx_boxes (8 + 2 + 0) (f + 1 + 0) (nth 0 temp 0) ltac:(lra) ltac:(lra)) as (c1 & E & L). rnum. rewrite E in A4. exists temp, c1. split; [exact A1|]. split; [exact A4|exact L].
Qed.
(** the same emissions over the upwelling-diffusion ocean *)
Example C110_upwelling_example : let lower := vx_run_up false 0 9 in let higher := vx_run_up false 0 20 in
  (o_exn lower, o_exn higher) = (None, None) /\
  exists c1 c1', in_frame (o_results lower) "concentrations" "CO2" [278 + 10 / pgc; c1] /\ in_frame (o_results higher) "concentrations" "CO2" [278 + 10 / pgc; c1'] /\ c1 <= c1' /\
  forall o, In o ["dT_glob"; "dT_NH"; "dT_SH"; "OHC700"; "OHCTOT"] ->
  exists w w', in_array (o_results lower) o w /\ in_array (o_results higher) o w' /\ List.length w = 2%nat /\ upto_le 2 w w'.
Proof.
  cbv zeta. destruct (vx_up_series 9 ltac:(lra)) as (X & t & c1 & TA & C1 & L1). destruct (vx_up_series 20 ltac:(lra)) as (X' & t' & c1' & _ & C1' & L1').
  split; [rewrite X, X'; reflexivity|].
  assert (G : pgc = 2123 / 1000) by reflexivity || (unfold pgc; lra).
  assert (N2 : in_frame (o_results (vx_run_up false 0 9)) "concentrations" "N2O" [270; 271])
    by (destruct vx_up_ocean as [H UO]; apply vx_column; unfold vx_run_up; rewrite UO; generalize (M_UDM.ud_year vx_up) (M_UDM.ud_init vx_up); intros; vm_compute; reflexivity).
  assert (E0 : box_coupled_run (- 999) vx_box (vx_scenario false 0 9) (ud_thermal vx_up) vx_inst vx_table (M_UDM.ud_init vx_up) true false [] = vx_run_up false 0 9) by (unfold vx_run_up; reflexivity).
  assert (E0' : box_coupled_run (- 999) vx_box (vx_scenario false 0 20) (ud_thermal vx_up) vx_inst vx_table (M_UDM.ud_init vx_up) true false [] = vx_run_up false 0 20) by (unfold vx_run_up; reflexivity).
  assert (EM : emits_more (vx_scenario false 0 9) (vx_scenario false 0 20) 2).
  { intros [|[|k]] ff af ff' af' L y; [| |lia]; cbn; intros Q1 Q2 Q3 Q4; injection Q1 as <-; injection Q2 as <-; injection Q3 as <-; injection Q4 as <-; (split; [lra|intros K; try discriminate K; lra]). }
  assert (SH : shares vx_box) by (constructor; cbn; lra).
  assert (TM : forall k, (k < 2)%nat -> tame vx_box 278 (last_year t k)).
  { intros k _. unfold tame, ocean_rate. rewrite G. cbn [b_beta_f b_sol_base b_sol_coeff vx_box]. rewrite Rmult_0_l. lra. }
  destruct (C110_more_emissions_upwelling (- 999) vx_box _ _ vx_inst vx_table vx_up false false [] [] _ _ _ _ _ t (278 + 10 / pgc) (vx_differ false 0 0 9 20) (vx_plain false 0 9) eq_refl eq_refl eq_refl eq_refl EM SH eq_refl ltac:(cbn; lra) ltac:(cbn; lra) vx_calm_up
    E0 E0' X X' C1 C1' N2 TA eq_refl) as [D W].
  - rewrite G. lra.
  - rewrite G. intros v [<-|[<-|[]]]; lra.
  - rewrite G. intros v [<-|[<-|[]]]; lra.
  - intros v [<-|[<-|[]]]; lra.
  - exact TM.
  - exists c1, c1'. split; [exact C1|]. split; [exact C1'|].
    split; [destruct D as [_ D]; apply (D 1%nat); [cbn; lia|reflexivity|reflexivity]|]. intros o I. apply W. cbn [In] in I |- *. tauto.
Qed.
