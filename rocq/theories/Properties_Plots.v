(** * Properties_Plots: the plots of a run (C86-C88) *)
From Coq Require Import QArith.
From Verif Require Import PyBase PyBaseFacts Num M_Gas M_TwoLayer M_UDM M_Forcing M_Driver M_Results M_Plots
  Spec_Results Spec_Plots P_Plots P_Plots2.
Local Open Scope nat_scope.

(** ** C86 *)
(** Every drawn column after the first gets one panel, in the order of the frame: sixteen in each of the first two
    pictures, the others in the third; panels lie within the grid. *)
Theorem C86_pictures : forall var unit cols first shown,
  select_drawn (drawn var unit) cols (first :: shown) -> In "Year" (first :: shown) ->
  labels_known var unit cols shown -> (List.length shown <= 32 \/ 36 < List.length shown) ->
  let '(log, e) := plot_output2 var unit cols in
  e = None /\ map file_and_panels (pictures log) = expected_pictures var shown /\ columns_drawn (pictures log) = shown /\
  forall p, In p (pictures log) -> well_placed p.
Proof. exact c86. Qed.
Print Assumptions C86_pictures.
(** With 33 to 36 columns the third picture has one row; it is never saved. *)
Theorem C86_third_picture_lost : forall var unit cols first shown,
  select_drawn (drawn var unit) cols (first :: shown) -> In "Year" (first :: shown) ->
  labels_known var unit cols shown -> 32 < List.length shown <= 36 ->
  let '(log, e) := plot_output2 var unit cols in
  e = Some IndexError /\ columns_drawn (pictures log) = firstn 32 shown.
Proof. exact c86_lost'. Qed.
Print Assumptions C86_third_picture_lost.
(** Every step, picture by picture: rows and title of the figure, place, title, letter and unit of each panel, the places that stay empty, the file. *)
Theorem C86_every_step : forall var unit cols first shown,
  select_drawn (drawn var unit) cols (first :: shown) -> In "Year" (first :: shown) ->
  labels_known var unit cols shown -> (List.length shown <= 32 \/ 36 < List.length shown) ->
  plot_output2 var unit cols = (expected_steps var unit shown, None).
Proof. exact c86_steps. Qed.
Print Assumptions C86_every_step.
(** A component whose unit is not known is drawn; then plotting ends in KeyError. *)
Theorem C86_missing_unit : forall var unit cols first before c after, var <> PForc ->
  select_drawn (drawn var unit) cols (first :: before ++ c :: after) -> In "Year" (first :: before ++ c :: after) ->
  (forall x, In x before -> exists u, dget unit x = Some u) -> dget unit c = None -> (List.length before < 32 \/ 36 < List.length (before ++ c :: after)) ->
  let '(log, e) := plot_output2 var unit cols in e = Some (KeyError c) /\ panels_drawn log = before ++ [c].
Proof. exact c86_no_unit. Qed.
Print Assumptions C86_missing_unit.
(** Nothing is drawn of a forcing frame without one of the six columns that are left out, or of a frame in which no "Year" is kept. *)
Theorem C86_missing_column : forall unit cols c, In c ["NOx"; "CO"; "NMVOC"; "NH3"; "BMB_AEROS_OC"; "BMB_AEROS_BC"] -> ~ In c cols ->
  exists k, In k ["NOx"; "CO"; "NMVOC"; "NH3"; "BMB_AEROS_OC"; "BMB_AEROS_BC"] /\ ~ In k cols /\ plot_output2 PForc unit cols = ([], Some (KeyError k)).
Proof. exact c86_no_column. Qed.
Print Assumptions C86_missing_column.
Theorem C86_missing_year : forall var unit cols shown, select_drawn (drawn var unit) cols shown -> (var = PForc -> labels_known var unit cols []) -> ~ In "Year" shown ->
  plot_output2 var unit cols = ([], Some (KeyError "Year")).
Proof. exact c86_no_year. Qed.
Print Assumptions C86_missing_year.

Example C86_example_failures :
  plot_output2 PConc [("CO2", "ppm")] ["Year"; "CO2"; "CH4"; "N2O"] =
    ([Open 4 "CICERO SCM simulation, Concentrations 1 of 2"; Panel 0 0 "CO2" "CO2" 97; YLabel 0 0 "[ppm]"; Panel 0 1 "CH4" "CH4" 98], Some (KeyError "CH4")) /\
  plot_output2 PForc [] ["Year"; "CO2"; "NOx"; "CO"; "NMVOC"; "NH3"; "BMB_AEROS_OC"] = ([], Some (KeyError "BMB_AEROS_BC")) /\
  plot_output2 PEmis [("CO2", "Pg")] ["CO2"] = ([], Some (KeyError "Year")) /\
  expected_steps PForc [] ["CO2"; "Total_forcing"] =
    [Open 4 "CICERO SCM simulation, Radiative Forcing 1 of 3"; Panel 0 0 "CO2" "CO2" 97; Panel 0 1 "Total_forcing" "Total anthropogenic" 98;
     Remove 0 2; Remove 0 3; Save "forc_1.png"] /\
  List.length (expected_steps PForc [] (map M_Distro.str_of (seq 0 37))) = 46.
Proof. vm_compute. repeat split. Qed.
Example C86_example :
  plot_output2 PConc [("CO2", "ppm"); ("CH4", "ppb"); ("N2O", "ppb"); ("SO2", "X"); ("CFC-11", "ppt"); ("SF6", "ppt")]
    ["Year"; "CO2"; "CH4"; "SO2"; "N2O"; "CFC-11"; "SF6"] =
  ([Open 4 "CICERO SCM simulation, Concentrations 1 of 2";
    Panel 0 0 "CO2" "CO2" 97; YLabel 0 0 "[ppm]"; Panel 0 1 "CH4" "CH4" 98; YLabel 0 1 "[ppb]";
    Panel 0 2 "N2O" "N2O" 99; YLabel 0 2 "[ppb]"; Panel 0 3 "CFC-11" "CFC-11" 100; YLabel 0 3 "[ppt]";
    Panel 1 0 "SF6" "SF6" 101; YLabel 1 0 "[ppt]"; Remove 1 1; Remove 1 2; Remove 1 3; Save "conc_1.png"], None).
Proof. vm_compute. reflexivity. Qed.
(** [n] columns with numbers as names *)
Definition px_cols (n : nat) : list string := map M_Distro.str_of (seq 0 n).
Definition px_units (n : nat) : dict string := map (fun c => (c, "ppt")) (px_cols n).
Definition px_summary (n : nat) :=
  let '(log, e) := plot_output2 PEmis (px_units n) ("Year" :: px_cols n) in
  (map (fun p => (fst p, List.length (snd p), last (snd p) (0, 0, ""))) (pictures log), e).
Example C86_example_pages :
  px_summary 16 = ([(4, "em_1.png", 16, (3, 3, "15"))], None) /\
  px_summary 17 = ([(4, "em_1.png", 16, (3, 3, "15")); (4, "em_2.png", 1, (0, 0, "16"))], None) /\
  px_summary 36 = ([(4, "em_1.png", 16, (3, 3, "15")); (4, "em_2.png", 16, (3, 3, "31"))], Some IndexError) /\
  px_summary 37 = ([(4, "em_1.png", 16, (3, 3, "15")); (4, "em_2.png", 16, (3, 3, "31")); (2, "em_3.png", 5, (1, 0, "36"))], None).
Proof. vm_compute. repeat split. Qed.
Example C86_example_hypotheses :
  select_drawn (drawn PEmis [("CO2", "Pg"); ("SO2", "X")]) ["Year"; "SO2"; "CO2"] ["Year"; "CO2"] /\
  labels_known PEmis [("CO2", "Pg"); ("SO2", "X")] ["Year"; "SO2"; "CO2"] ["CO2"].
Proof.
  split.
  - apply sd_take; [discriminate|]. apply sd_skip; [intro H; now apply H|]. apply sd_take; [discriminate|apply sd_nil].
  - intros c [<-|[]]. now exists "Pg".
Qed.

(** ** C87 *)
(** The forcing frame does not begin with the year (C74), so the plots of an emission run show the year as a component and leave
    one component out. *)
Theorem C87_year_drawn : forall (A : Type) (N : Num A) (p : hpam A) gt erf st f cs last shown, wf gt -> wf (fr_cols erf) ->
  (forall k, In k reserved -> ~ In k (dkeys gt) /\ ~ In k (dkeys (fr_cols erf))) ->
  dkeys (s_forc st) = dkeys (s_forc (reset_arrays p gt erf)) -> dkeys (fr_cols erf) = cs ++ [last] -> forcing_frame p st erf = Ok f ->
  drawn PForc [] last -> labels_known PForc [] (dkeys (fr_cols f)) [] ->
  select_drawn (drawn PForc []) (tl (dkeys (fr_cols f))) shown -> (List.length shown <= 32 \/ 36 < List.length shown) ->
  let '(log, e) := plot_output2 PForc [] (dkeys (fr_cols f)) in
  e = None /\ In "Year" (columns_drawn (pictures log)) /\ ~ In (forcing_label last) (columns_drawn (pictures log)).
Proof. exact @c87. Qed.
Print Assumptions C87_year_drawn.
(** A frame of one year: five gases of the model besides the six that are not drawn, two precalculated columns *)
Definition px_pams : hpam Q :=
  {| nystart := 2000; nyend := 2000; emstart := 2000; conc_run := false; lifetime_mode := "TAR"; just_one := None; ref_yr := 2000;
     qbmb := 0%Q; qo3 := 0%Q; qdirso2 := 0%Q; qindso2 := 0%Q; qbc := 0%Q; qoc := 0%Q; qh2o_ch4 := 0%Q; qnmvoc := 0%Q; qnh3 := 0%Q; qnox := 0%Q;
     cl_dict := []; br_dict := [] |}.
Definition px_gas : gas Q :=
  {| g_unit := "-"; g_beta := 1%Q; g_alpha := 1%Q; g_tau1 := 1%Q; g_tau2 := 0%Q; g_tau3 := 0%Q; g_nat := 0%Q; g_sarf := 1%Q |}.
Definition px_table : dict (gas Q) :=
  map (fun k => (k, px_gas)) ["CO2"; "NOx"; "CO"; "NMVOC"; "NH3"; "SO2"; "BMB_AEROS_OC"; "BMB_AEROS_BC"; "SF6"; "STRAT_O3"].
Definition px_erf : frame Q := Build_frame [2000]%Z [("SF6", [2]%Q); ("STRAT_O3", [3]%Q)].
Example C87_example :
  match forcing_frame (N := QNum) px_pams (reset_arrays (N := QNum) px_pams px_table px_erf) px_erf with
  | Ok f =>
      (dkeys (fr_cols f), columns_drawn (pictures (fst (plot_output2 PForc [] (dkeys (fr_cols f))))), snd (plot_output2 PForc [] (dkeys (fr_cols f)))) =
      (["STRAT_O3"; "CO2"; "NOx"; "CO"; "NMVOC"; "NH3"; "SO4_DIR"; "BMB_AEROS_OC"; "BMB_AEROS_BC"; "Total_forcing"; "Year"; "SF6"],
       ["CO2"; "SO4_DIR"; "Total_forcing"; "Year"; "SF6"], None)
  | Err _ => False
  end /\
  plot_output2 PForc [] ["Year"; "NOx"; "CO2"] = ([], Some (KeyError "CO")).
Proof. vm_compute. split; reflexivity. Qed.

(** ** C88 *)
Theorem C88_upwelling_diffusion : forall (A : Type) (N : Num A) H e2c c2f fl p c t0 h0 r s,
  run_years (ud_state A) (ud_thermal p) c H e2c c2f fl t0 h0 r = (s, None) ->
  let '(pics, e) := plot_output1 true (l_res s) in
  e = None /\ map (fun picture => (fst picture, map fst (snd picture))) pics = expected_lines /\
  forall f lines, In (f, lines) pics -> forall n k v, In (n, k, v) lines -> dget (l_res s) k = Some (Arr v).
Proof. exact @c88_lines. Qed.
Print Assumptions C88_upwelling_diffusion.
(** A run that fails is not plotted; when no picture fails, the results are those of the run without plotting. *)
Theorem C88_failed_run : forall (A : Type) (N : Num A) H e2c c2f add fl T (th : thermal A T) c folder t0 h0 carbon r s e,
  run_years T th c H e2c c2f fl t0 h0 r = (s, Some e) ->
  let '(o, pics) := run_plotted th c e2c c2f add fl folder t0 h0 carbon r in o_exn o = Some e /\ o_results o = l_res s /\ pics = [].
Proof. exact @c88_failed. Qed.
Print Assumptions C88_failed_run.
Theorem C88_same_results : forall (A : Type) (N : Num A) H e2c c2f add fl T (th : thermal A T) c folder t0 h0 carbon r,
  snd (plot_output1 folder (l_res (fst (run_years T th c H e2c c2f fl t0 h0 r)))) = None ->
  fst (run_plotted th c e2c c2f add fl folder t0 h0 carbon r) = run T th c H e2c c2f add fl t0 h0 true carbon r.
Proof. exact @c88_same. Qed.
Print Assumptions C88_same_results.
(** The two-layer model: a completed run that should be plotted ends in KeyError, before the frames of the handler are added. *)
Theorem C88_two_layer : forall (A : Type) (N : Num A) H e2c c2f add fl p c t0 h0 carbon r s, dget r "RIB_N" = None ->
  run_years (tl_state A) (tl_thermal p) c H e2c c2f fl t0 h0 r = (s, None) ->
  let '(o, pics) := run_plotted (tl_thermal p) c e2c c2f add fl true t0 h0 carbon r in
  o_exn o = Some (KeyError "RIB_N") /\ o_results o = l_res s /\ map fst pics = ["ohc.png"].
Proof. exact @c88_two_layer. Qed.
Print Assumptions C88_two_layer.
(** Without an output folder plotting is skipped and changes nothing. *)
Theorem C88_no_folder : forall (A : Type) (N : Num A) H e2c c2f add fl T (th : thermal A T) c t0 h0 carbon r,
  run_plotted th c e2c c2f add fl false t0 h0 carbon r = (run T th c H e2c c2f add fl t0 h0 true carbon r, []).
Proof. exact @c88_no_folder. Qed.
Print Assumptions C88_no_folder.

Definition px_inst : inst Q :=
  {| d_start := 2000; d_end := 2001; d_rf := Some (RfArray [1; 2]%Q); d_sun := [0; 0]%Q; d_luc := [0; 0]%Q;
     d_vn := [[0]; [0]]%Q; d_vs := [[0]; [0]]%Q |}.
Definition px_thermal (names : dict string) : thermal Q Q :=
  {| t_names := names; t_year := fun s i => let t := Qred (s + i_nh i) in Ok (t, map (fun n => (snd n, t)) names) |}.
Definition px_run (names : dict string) (folder : bool) :=
  let '(o, pics) := run_plotted (N := QNum) (px_thermal names) px_inst (fun (h : unit) _ _ => Ok h) (fun h _ _ _ => Err ValueError)
    (fun _ _ _ => Err ValueError) None folder 0%Q tt false [] in
  (o_exn o, map (fun p => (fst p, map (fun l => (fst l, snd l)) (firstn 1 (snd p)))) pics).
Definition px_names : dict string := map (fun k => (k, k)) (map snd (ohc_plot ++ [(0, "RIB_glob")] ++ temp_plot)).
Example C88_example :
  px_run px_names true = (Some (KeyError "RIB_N"), [("ohc.png", [(0, "OHC700", [1; 3]%Q)])]) /\
  px_run px_names false = (None, []) /\
  snd (run_plotted (N := QNum) (px_thermal px_names) {| d_start := 2000; d_end := 2003; d_rf := Some (RfArray [1; 2]%Q); d_sun := [0; 0]%Q; d_luc := [0; 0]%Q;
     d_vn := [[0]; [0]]%Q; d_vs := [[0]; [0]]%Q |} (fun (h : unit) _ _ => Ok h) (fun h _ _ _ => Err ValueError) (fun _ _ _ => Err ValueError) None true 0%Q tt false []) = [] /\
  px_run (px_names ++ [("RIB_N", "RIB_N"); ("RIB_S", "RIB_S")]) true =
    (None, [("ohc.png", [(0, "OHC700", [1; 3]%Q)]); ("rib.png", [(0, "RIB_glob", [1; 3]%Q)]); ("temp.png", [(0, "dT_glob", [1; 3]%Q)])]).
Proof. vm_compute. repeat split. Qed.
