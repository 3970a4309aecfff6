(** * Properties_Span: runs of different lengths (C91) *)
From Coq Require Import QArith Lia Reals.
From Verif Require Import PyBase PyBaseFacts Num M_Gas M_Forcing M_TwoLayer M_UDM M_RFuns M_Carbon M_CarbonBox M_Driver M_Results M_BoxRun Spec_Driver Spec_Reader Spec_Results Spec_Coupled Spec_Span
  P_Span3 P_Span4 P_Span5 P_Span6 P_Span7 Properties_Coupled.
From Verif Require Spec_Forc.

(** ** C91 *)
(** Up to row [M], which both runs reach, a run reports the same whatever its last year; the inputs agree up to [M], as far as they
    matter until then. [same_source] excludes one case, see [C91_last_year]. *)
Theorem C91_span : forall (A : Type) (N : Num A) T nan cp cp' (th : thermal A T) gt t0 cc0 cc0' M sc sc' c c' carbon carbon' r r' out out',
  agree_span M sc sc' c c' -> same_source (c_p sc) (nyend (c_p sc')) (nystart (c_p sc) + Z.of_nat M) ->
  same_decay M cp cp' -> same_carbon M cp cc0 cc0' -> prepared gt sc -> prepared gt sc' -> wf gt ->
  (forall k, In k reserved -> ~ In k (dkeys gt)) -> distinct_outputs (t_names th) ->
  (forall k, In k ["emissions"; "concentrations"; "forcing"; "carbon cycle"] -> ~ In k (output_names (t_names th))) ->
  coupled_run nan cp sc th c gt t0 cc0 true carbon r = out -> coupled_run nan cp' sc' th c' gt t0 cc0' true carbon' r' = out' ->
  o_exn out = None -> o_exn out' = None ->
  (forall o, In o (output_names (t_names th)) -> exists v v', in_array (o_results out) o v /\ in_array (o_results out') o v' /\
    List.length v = d_years c /\ List.length v' = d_years c' /\ rows_agree M v v') /\
  frames_until M (o_results out) (o_results out') "forcing" /\
  ((exists k, ordinary gt k) -> frames_until M (o_results out) (o_results out') "concentrations").
Proof. intros A N T nan cp cp' th gt t0. exact (@c91_inputs A N T nan th gt t0 cp cp'). Qed.
Print Assumptions C91_span.
(** The same with the box carbon cycle, which has no window. *)
Theorem C91_box : forall (A : Type) (N : Num A) T nan (bp : box_pam A) (th : thermal A T) gt t0 M sc sc' c c' carbon carbon' r r' out out',
  agree_span M sc sc' c c' -> same_source (c_p sc) (nyend (c_p sc')) (nystart (c_p sc) + Z.of_nat M) ->
  prepared gt sc -> prepared gt sc' -> wf gt ->
  (forall k, In k reserved -> ~ In k (dkeys gt)) -> distinct_outputs (t_names th) ->
  (forall k, In k ["emissions"; "concentrations"; "forcing"; "carbon cycle"] -> ~ In k (output_names (t_names th))) ->
  box_coupled_run nan bp sc th c gt t0 true carbon r = out -> box_coupled_run nan bp sc' th c' gt t0 true carbon' r' = out' ->
  o_exn out = None -> o_exn out' = None ->
  (forall o, In o (output_names (t_names th)) -> exists v v', in_array (o_results out) o v /\ in_array (o_results out') o v' /\
    List.length v = d_years c /\ List.length v' = d_years c' /\ rows_agree M v v') /\
  frames_until M (o_results out) (o_results out') "forcing" /\
  ((exists k, ordinary gt k) -> frames_until M (o_results out) (o_results out') "concentrations").
Proof. intros A N T nan bp th gt t0. exact (@c91_box A N T nan th gt t0 bp). Qed.
Print Assumptions C91_box.
(** The fluxes of the box carbon cycle in emission runs *)
Theorem C91_box_frame : forall T nan (bp : box_pam R) (th : thermal R T) gt t0 M sc sc' c c' r r' out out' g,
  agree_span M sc sc' c c' -> same_source (c_p sc) (nyend (c_p sc')) (nystart (c_p sc) + Z.of_nat M) -> prepared gt sc -> prepared gt sc' -> wf gt ->
  (forall k, In k reserved -> ~ In k (dkeys gt)) -> distinct_outputs (t_names th) ->
  (forall k, In k ["emissions"; "concentrations"; "forcing"; "carbon cycle"] -> ~ In k (output_names (t_names th))) ->
  dget (t_names th) "dT_glob" = Some "dtemp" -> get_first_key (t_names th) "dtemp" = Ok "dT_glob" ->
  dget gt "CO2" = Some g -> g_unit g <> "-" -> (exists k, ordinary gt k) -> conc_run (c_p sc) = false ->
  box_coupled_run nan bp sc th c gt t0 true true r = out -> box_coupled_run nan bp sc' th c' gt t0 true true r' = out' -> o_exn out = None -> o_exn out' = None ->
  forall k, In k ["Net primary production"; "Ocean carbon flux"] ->
  exists v v', in_frame (o_results out) "carbon cycle" k v /\ in_frame (o_results out') "carbon cycle" k v' /\
    List.length v = d_years c /\ List.length v' = d_years c' /\ rows_agree M v v'.
Proof. exact box_frame. Qed.
Print Assumptions C91_box_frame.
(** The carbon frame of an emission run, except for the airborne fraction (see [C91_airborne]) *)
Theorem C91_carbon_frame : forall (A : Type) (N : Num A) T nan (th : thermal A T) gt t0 cp cp' cc0 cc0' M sc sc' c c' r r' out out',
  agree_span M sc sc' c c' -> same_source (c_p sc) (nyend (c_p sc')) (nystart (c_p sc) + Z.of_nat M) ->
  same_decay M cp cp' -> same_carbon M cp cc0 cc0' -> prepared gt sc -> prepared gt sc' -> wf gt -> distinct_outputs (t_names th) -> conc_run (c_p sc) = false ->
  coupled_run nan cp sc th c gt t0 cc0 true true r = out -> coupled_run nan cp' sc' th c' gt t0 cc0' true true r' = out' -> o_exn out = None -> o_exn out' = None ->
  exists f f', dget (o_results out) "carbon cycle" = Some (Fr f) /\ dget (o_results out') "carbon cycle" = Some (Fr f') /\
    dkeys (fr_cols f) = ["Biosphere carbon flux"; "Ocean carbon flux"; "Mixed layer depth"; "CO2 solubility"; "Net Primary Production"; "Airborne fraction CO2"] /\ dkeys (fr_cols f') = dkeys (fr_cols f) /\
    forall k v v', k <> "Airborne fraction CO2" -> dget (fr_cols f) k = Some v -> dget (fr_cols f') k = Some v' -> rows_agree M v v'.
Proof. intros A N T. exact (@c91_frame A N T). Qed.
Print Assumptions C91_carbon_frame.
(** The carbon frame of a concentration run: the search for the emissions of a year does not depend on the years that follow. *)
Theorem C91_concentration_frame : forall (A : Type) (N : Num A) T nan (th : thermal A T) gt t0 cp cp' cc0 cc0' M sc sc' c c' r r' out out',
  agree_span M sc sc' c c' -> same_decay M cp cp' -> same_carbon M cp cc0 cc0' -> prepared gt sc -> prepared gt sc' -> wf gt -> distinct_outputs (t_names th) -> conc_run (c_p sc) = true ->
  coupled_run nan cp sc th c gt t0 cc0 true true r = out -> coupled_run nan cp' sc' th c' gt t0 cc0' true true r' = out' -> o_exn out = None -> o_exn out' = None ->
  exists f f', dget (o_results out) "carbon cycle" = Some (Fr f) /\ dget (o_results out') "carbon cycle" = Some (Fr f') /\
    dkeys (fr_cols f) = ["Biosphere carbon flux"; "Ocean carbon flux"; "Mixed layer depth"; "CO2 solubility"; "Net Primary Production"; "Airborne fraction CO2"; "Emissions"] /\ dkeys (fr_cols f') = dkeys (fr_cols f) /\
    forall k v v', k <> "Airborne fraction CO2" -> dget (fr_cols f) k = Some v -> dget (fr_cols f') k = Some v' -> rows_agree M v v'.
Proof. intros A N T. exact (@c91_conc A N T). Qed.
Print Assumptions C91_concentration_frame.
(** The box carbon cycle in concentration runs: two columns, no airborne fraction *)
Theorem C91_box_concentration_frame : forall T nan (bp : box_pam R) (th : thermal R T) gt t0 M sc sc' c c' r r' out out' g,
  agree_span M sc sc' c c' -> prepared gt sc -> prepared gt sc' -> wf gt ->
  (forall k, In k reserved -> ~ In k (dkeys gt)) -> distinct_outputs (t_names th) ->
  (forall k, In k ["emissions"; "concentrations"; "forcing"; "carbon cycle"] -> ~ In k (output_names (t_names th))) ->
  dget (t_names th) "dT_glob" = Some "dtemp" -> get_first_key (t_names th) "dtemp" = Ok "dT_glob" -> dget gt "CO2" = Some g -> g_unit g <> "-" ->
  dmem (fr_cols (c_conc sc)) "CO2" = true -> conc_run (c_p sc) = true ->
  box_coupled_run nan bp sc th c gt t0 true true r = out -> box_coupled_run nan bp sc' th c' gt t0 true true r' = out' -> o_exn out = None -> o_exn out' = None ->
  exists f f', dget (o_results out) "carbon cycle" = Some (Fr f) /\ dget (o_results out') "carbon cycle" = Some (Fr f') /\
    dkeys (fr_cols f) = ["Net primary production"; "Ocean carbon flux"] /\ dkeys (fr_cols f') = dkeys (fr_cols f) /\
    forall k v v', dget (fr_cols f) k = Some v -> dget (fr_cols f') k = Some v' -> List.length v = d_years c /\ List.length v' = d_years c' /\ rows_agree M v v'.
Proof. exact box_given_frame. Qed.
Print Assumptions C91_box_concentration_frame.
(** The carbon cycle set up for two windows meets the hypotheses, new or reset. *)
Theorem C91_carbon : forall (A : Type) (N : Num A) M (cp : cc_pam A) y1 y2 rs rb s1 b1 s2 b2, (M < y1)%nat -> (M < y2)%nat ->
  precalc_r_functions (idtm cp) y1 rs rb = Some (s1, b1) -> precalc_r_functions (idtm cp) y2 rs rb = Some (s2, b2) ->
  let c1 := with_window cp y1 s1 b1 in let c2 := with_window cp y2 s2 b2 in
  same_decay M c1 c2 /\ same_carbon M c1 (cc_init c1) (cc_init c2) /\
  forall h h' : cc_state A, h_sol h = h_sol h' -> h_ml h = h_ml h' -> same_carbon M c1 (cc_reset c1 h) (cc_reset c2 h').
Proof. exact @c91_carbon. Qed.
Print Assumptions C91_carbon.
(** Concentrations and forcing computed in advance, runs to [nyend p] and to [e'] *)
Theorem C91_precalculated : forall (A : Type) (N : Num A) (p : hpam A) e' gt conc emis pert pc erf conc' emis' pert' pc' erf' M,
  precalculate p gt conc emis pert = Ok (pc, erf) -> precalculate (with_end p e') gt conc' emis' pert' = Ok (pc', erf') -> wf gt ->
  covers conc (nystart p) (nyend p) (ordinary gt) -> covers emis (nystart p) (nyend p) (ordinary gt) ->
  covers conc' (nystart p) e' (ordinary gt) -> covers emis' (nystart p) e' (ordinary gt) ->
  conc_run p = true \/ (nyend p <= emstart p)%Z \/ (nystart p < emstart p)%Z -> conc_run p = true \/ (e' <= emstart p)%Z \/ (nystart p < emstart p)%Z ->
  (nystart p + Z.of_nat M <= nyend p)%Z -> (nystart p + Z.of_nat M <= e')%Z -> same_source p e' (nystart p + Z.of_nat M) ->
  agree_on (until (nystart p + Z.of_nat M)) conc conc' -> agree_on (until (nystart p + Z.of_nat M)) emis emis' ->
  (forall z, (z <= nystart p + Z.of_nat M)%Z ->
     filter (fun r => Z.eqb (fst (fst r)) z) (Spec_Forc.pert_rows pert) = filter (fun r => Z.eqb (fst (fst r)) z) (Spec_Forc.pert_rows pert')) ->
  agree_on (until (nystart p + Z.of_nat M)) pc pc' /\ agree_on (until (nystart p + Z.of_nat M)) erf erf'.
Proof. exact @c91_pre. Qed.
Print Assumptions C91_precalculated.

(** The same files, 2000-2002, for runs that end in [e]; emissions take over in [em]. *)
Definition lx_pams (em e : Z) : hpam Q :=
  {| nystart := 2000; nyend := e; emstart := em; conc_run := false; lifetime_mode := ""; just_one := None; ref_yr := 2001;
     qbmb := 0%Q; qo3 := 0%Q; qdirso2 := (- (1 / 2))%Q; qindso2 := 0%Q; qbc := 0%Q; qoc := 0%Q; qh2o_ch4 := 0%Q; qnmvoc := 0%Q; qnh3 := 0%Q; qnox := 0%Q;
     cl_dict := []; br_dict := [] |}.
Definition lx_conc : frame Q :=
  Build_frame [2000; 2001; 2002]%Z [("SF6", [2; 4; 7]%Q); ("CO2", [280; 290; 291]%Q); ("CH4", [700; 701; 702]%Q); ("N2O", [270; 271; 272]%Q)].
Definition lx_emis : frame Q :=
  Build_frame [2000; 2001; 2002]%Z [("SF6", [1; 1; 1]%Q); ("CO2_FF", [8; 9; 10]%Q); ("CO2_AFOLU", [2; 1; 1]%Q); ("CH4", [1; 1; 1]%Q); ("N2O", [1; 1; 1]%Q); ("SO2", [1; 6; 2]%Q);
    ("BC", [1; 2; 1]%Q); ("NOx", [1; 1; 1]%Q); ("CO", [0; 0; 0]%Q); ("NMVOC", [0; 0; 0]%Q)].
Definition lx_scenario (em e : Z) : scenario Q :=
  let r := match precalculate (N := QNum) (lx_pams em e) kx_table2 lx_conc lx_emis None with Ok r => r | Err _ => (lx_conc, lx_conc) end in
  {| c_p := lx_pams em e; c_conc := lx_conc; c_emis := lx_emis; c_nat_ch4 := Build_frame [2000; 2001; 2002]%Z [("CH4", [0; 0; 0]%Q)];
     c_nat_n2o := Build_frame [2000; 2001; 2002]%Z [("N2O", [0; 0; 0]%Q)]; c_pert := None; c_pc := fst r; c_erf := snd r |}.
Definition lx_inst (e : Z) : inst Q :=
  {| d_start := 2000; d_end := e; d_rf := None; d_sun := [1 / 2; 0; 1]%Q; d_luc := [1 / 8; - (1 / 8); 0]%Q; d_vn := [[0]; [0]; [0]]%Q; d_vs := [[0]; [0]; [0]]%Q |}.
Definition lx_cc (years : nat) : cc_pam Q := with_window kx_cc years (firstn years [1; 1 / 2; 1 / 4]%Q) (firstn years [0; 1 / 10; 1 / 20]%Q).
Definition lx_run (em e : Z) : outcome Q (handler Q) :=
  let cc := lx_cc (Z.to_nat (e - 1999)) in
  coupled_run (N := QNum) (- 999)%Q cc (lx_scenario em e) kx_thermal (lx_inst e) kx_table2 tt (cc_init (N := QNum) cc) true false [].
Definition lx_shown (o : outcome Q (handler Q)) :=
  (o_exn o, kx_array "dT_glob" o, kx_column "concentrations" "CO2" o, kx_column "concentrations" "SF6" o, kx_column "forcing" "SO4_DIR" o).
(** A run to 2001 and one to 2002 report the same for 2000 and 2001. *)
Example C91_example :
  match lx_shown (lx_run 2005 2001), lx_shown (lx_run 2005 2002) with
  | (None, Some [t; u], Some [a; b], Some [c; d], Some [s; w]), (None, Some [t'; u'; _], Some [a'; b'; _], Some [c'; d'; _], Some [s'; w'; _]) =>
      ([t; u], [a; b], [c; d], [s; w]) = ([t'; u'], [a'; b'], [c'; d'], [s'; w']) /\ t <> u /\ a <> b /\ c <> d /\ s <> w
  | _, _ => False
  end.
Proof. vm_compute. split; [reflexivity|]. split; [discriminate|]. split; [discriminate|]. split; discriminate. Qed.
Definition lx_box : box_pam Q :=
  {| b_beta_f := 0%Q; b_land_sens := (1 / 2)%Q; b_soil_rate := (1 / 50)%Q; b_mld := 75%Q; b_exchange := (1 / 100)%Q; b_veg_frac := (1 / 2)%Q; b_sol_base := (1 / 50)%Q;
     b_sol_coeff := (- (1 / 10))%Q; b_idtm := 1; b_preind := 278%Q |}.
Definition lx_box_run (e : Z) := box_coupled_run (N := QNum) (- 999)%Q lx_box (lx_scenario 2005 e) kx_thermal (lx_inst e) kx_table2 tt true false [].
Definition lx_of {H} (k col : string) (o : outcome Q H) : option (list Q) :=
  match dget (o_results o) k with Some (Arr l) => Some l | Some (Fr f) => dget (fr_cols f) col | _ => None end.
Example C91_box_example :
  match lx_of "dT_glob" "" (lx_box_run 2001), lx_of "dT_glob" "" (lx_box_run 2002), lx_of "concentrations" "CO2" (lx_box_run 2001), lx_of "concentrations" "CO2" (lx_box_run 2002) with
  | Some [t; u], Some [t'; u'; _], Some [a; b], Some [a'; b'; _] => (t, u, a, b) = (t', u', a', b') /\ t <> u /\ a <> b
  | _, _, _, _ => False
  end /\ o_exn (lx_box_run 2001) = None /\ o_exn (lx_box_run 2002) = None.
Proof. vm_compute. split; [split; [reflexivity|split; discriminate]|]. split; reflexivity. Qed.
(** The hypotheses of [C91_span] hold for the two runs. *)
Example C91_hypotheses :
  agree_span 1 (lx_scenario 2005 2001) (lx_scenario 2005 2002) (lx_inst 2001) (lx_inst 2002) /\
  same_source (lx_pams 2005 2001) 2002 2001 /\ same_decay 1 (lx_cc 2) (lx_cc 3) /\ same_carbon 1 (lx_cc 2) (cc_init (N := QNum) (lx_cc 2)) (cc_init (N := QNum) (lx_cc 3)).
Proof.
  split.
  - constructor; try reflexivity; try (intros i Li; reflexivity); try (vm_compute; lia); split; reflexivity.
  - split; [right; left; vm_compute; reflexivity|]. split.
    + split; [reflexivity|]. split; intros [|[|i]] Li; try reflexivity; vm_compute in Li; lia.
    + constructor; try reflexivity; intros [|[|i]] Li; try reflexivity; vm_compute in Li; lia.
Qed.
(** [same_source] is needed: emissions take over in 2001, but a run that ends in 2001 takes the gas of that year from the
    concentrations, a run that goes on to 2002 computes it from the emissions. The files are the same. *)
Example C91_last_year :
  match kx_column "concentrations" "SF6" (lx_run 2001 2001), kx_column "concentrations" "SF6" (lx_run 2001 2002) with
  | Some [c; d], Some [c'; d'; _] => c = c' /\ d = 4%Q /\ ~ (d' == 4)%Q
  | _, _ => False
  end.
Proof. vm_compute. split; [reflexivity|]. split; [reflexivity|]. discriminate. Qed.
(** [C91_precalculated] and [C91_carbon]: the columns made in advance, and decay functions of the package for two windows *)
Example C91_advance_example :
  match precalculate (N := QNum) (lx_pams 2005 2001) kx_table2 lx_conc lx_emis None, precalculate (N := QNum) (lx_pams 2005 2002) kx_table2 lx_conc lx_emis None with
  | Ok (pc, erf), Ok (pc', erf') =>
      dget (fr_cols pc) "SF6" = Some [2; 4]%Q /\ dget (fr_cols pc') "SF6" = Some [2; 4; 7]%Q /\
      option_map (firstn 2) (dget (fr_cols erf') "SO2") = dget (fr_cols erf) "SO2"
  | _, _ => False
  end.
Proof. vm_compute. repeat split. Qed.
Example C91_window_example : forall rs rb s1 b1 s2 b2,
  precalc_r_functions (N := RNum) 24 86 rs rb = Some (s1, b1) -> precalc_r_functions (N := RNum) 24 351 rs rb = Some (s2, b2) ->
  nth_error s1 2063 = nth_error s2 2063.
Proof.
  intros rs rb s1 b1 s2 b2 E E'.
  destruct (C91_carbon R RNum 85 {| beta_f := 0; mixed_carbon := 0; ml_w_sigmoid := 0; ml_fracmax := 0; ml_t_half := 0; t_half := 0; w_sigmoid := 0; t_threshold := 0;
    w_threshold := 0; solubility_sens := 0; solubility_limit := 0; ml_depth_min := 0; preind := 0; idtm := 24; years_tot := 86; r_s := []; r_b := [] |}%R 86 351 rs rb s1 b1 s2 b2) as [[_ [D _]] _];
    [lia|lia|exact E|exact E'|]. apply (D 2063%nat). cbn. lia.
Qed.

(** Emissions of 10 a year, then [last] in 2002 *)
Definition lx_carbon (last : Q) (e : Z) : outcome Q (handler Q) :=
  let cc := lx_cc (Z.to_nat (e - 1999)) in let sc := lx_scenario 2005 e in
  let emis := Build_frame (fr_index lx_emis) (dset (fr_cols lx_emis) "CO2_FF" [8; 9; last - 1]%Q) in
  coupled_run (N := QNum) (- 999)%Q cc {| c_p := c_p sc; c_conc := c_conc sc; c_emis := emis; c_nat_ch4 := c_nat_ch4 sc; c_nat_n2o := c_nat_n2o sc; c_pert := c_pert sc; c_pc := c_pc sc; c_erf := c_erf sc |}
    kx_thermal (lx_inst e) kx_table2 tt (cc_init (N := QNum) cc) true true [].
Definition lx_first2 (l : option (list Q)) : option (list Q) := option_map (firstn 2) l.
Example C91_carbon_example :
  let col k := (kx_column "carbon cycle" k (lx_carbon 11 2001), lx_first2 (kx_column "carbon cycle" k (lx_carbon 11 2002))) in
  (o_exn (lx_carbon 11 2001), o_exn (lx_carbon 11 2002)) = (None, None) /\
  forall k, In k ["Biosphere carbon flux"; "Ocean carbon flux"; "Mixed layer depth"; "CO2 solubility"; "Net Primary Production"] -> fst (col k) = snd (col k) /\ fst (col k) <> None.
Proof. vm_compute. split; [reflexivity|]. intros k I. repeat (destruct I as [<-|I]; [split; [reflexivity|discriminate]|]). contradiction. Qed.
(** Concentrations of 280, 290 and 291 ppm given, numbers with twelve decimals: the emissions found for 2000 and 2001 are the same in a run to 2002. *)
Definition lx_num : Num Q := let cut x := Qmake (Qround.Qfloor (x * 1000000000000)%Q) 1000000000000 in {|
  nofZ := inject_Z; nadd := fun x y => cut (Qplus x y); nsub := fun x y => cut (Qminus x y); nmul := fun x y => cut (Qmult x y); ndiv := fun x y => cut (Qdiv x y);
  nopp := Qopp; nabs := Qabs.Qabs; nexp := fun x => x; nln := fun x => x; nsqrt := fun x => x; npow := fun x _ => x;
  nltb := nltb (Num := QNum); nleb := Qle_bool; neqb := Qeq_bool; nfloor := Qround.Qfloor |}.
Definition lx_told (e : Z) : scenario Q :=
  let p := {| nystart := 2000; nyend := e; emstart := 2005; conc_run := true; lifetime_mode := ""; just_one := None; ref_yr := 2001;
     qbmb := 0%Q; qo3 := 0%Q; qdirso2 := (- (1 / 2))%Q; qindso2 := 0%Q; qbc := 0%Q; qoc := 0%Q; qh2o_ch4 := 0%Q; qnmvoc := 0%Q; qnh3 := 0%Q; qnox := 0%Q; cl_dict := []; br_dict := [] |} in
  let r := match precalculate (N := lx_num) p kx_table2 lx_conc lx_emis None with Ok r => r | Err _ => (lx_conc, lx_conc) end in
  {| c_p := p; c_conc := lx_conc; c_emis := lx_emis; c_nat_ch4 := Build_frame [2000; 2001; 2002]%Z [("CH4", [0; 0; 0]%Q)];
     c_nat_n2o := Build_frame [2000; 2001; 2002]%Z [("N2O", [0; 0; 0]%Q)]; c_pert := None; c_pc := fst r; c_erf := snd r |}.
Definition lx_given (e : Z) : outcome Q (handler Q) :=
  let cc := lx_cc (Z.to_nat (e - 1999)) in
  coupled_run (N := lx_num) (- 999)%Q cc (lx_told e) kx_thermal (lx_inst e) kx_table2 tt (cc_init (N := lx_num) cc) true true [].
Example C91_given_example :
  match lx_given 2001, lx_given 2002 with
  | {| o_results := r; o_exn := None |}, {| o_results := r'; o_exn := None |} =>
      match dget r "carbon cycle", dget r' "carbon cycle" with
      | Some (Fr f), Some (Fr f') => fr_cols f = map (fun kv => (fst kv, firstn 2 (snd kv))) (fr_cols f') /\ fr_index f' = [2000; 2001; 2002]%Z /\
          dget (fr_cols f) "Emissions" = Some [404.377732012143; 515.979717129143]%Q
      | _, _ => False
      end
  | _, _ => False
  end.
Proof. vm_compute. repeat split. Qed.
Definition lx_box_given (e : Z) := box_coupled_run (N := lx_num) (- 999)%Q lx_box (lx_told e) kx_thermal (lx_inst e) kx_table2 tt true true [].
Example C91_box_given_example :
  match lx_box_given 2001, lx_box_given 2002 with
  | {| o_results := r; o_exn := None |}, {| o_results := r'; o_exn := None |} =>
      match dget r "carbon cycle", dget r' "carbon cycle" with
      | Some (Fr f), Some (Fr f') => fr_cols f = map (fun kv => (fst kv, firstn 2 (snd kv))) (fr_cols f') /\ fr_index f' = [2000; 2001; 2002]%Z /\
          match fr_cols f with [(_, [a; b]); (_, [u; v])] => a <> b /\ u <> v | _ => False end
      | _, _ => False
      end
  | _, _ => False
  end.
Proof. vm_compute. split; [reflexivity|]. split; [reflexivity|]. split; discriminate. Qed.
(** A later year in which the emissions so far sum to zero takes away the airborne fraction of the earlier ones (here -999 stands for NaN). *)
Example C91_airborne :
  let col last e := kx_column "carbon cycle" "Airborne fraction CO2" (lx_carbon last e) in
  match col 11%Q 2001%Z with Some [a; b] => lx_first2 (col 11%Q 2002%Z) = Some [a; b] /\ a <> (- 999)%Q /\ b <> (- 999)%Q | _ => False end /\
  o_exn (lx_carbon (- 20) 2002) = None /\ lx_first2 (col (- 20)%Q 2002%Z) = Some [- 999; - 999]%Q.
Proof. vm_compute. repeat split; discriminate. Qed.
Definition lx_box_carbon (e : Z) := box_coupled_run (N := QNum) (- 999)%Q lx_box (lx_scenario 2005 e) kx_thermal (lx_inst e) kx_table2 tt true true [].
Example C91_box_frame_example :
  forall k, In k ["Net primary production"; "Ocean carbon flux"] ->
  match lx_of "carbon cycle" k (lx_box_carbon 2001), lx_of "carbon cycle" k (lx_box_carbon 2002) with
  | Some [a; b], Some [a'; b'; _] => (a, b) = (a', b') /\ a <> b
  | _, _ => False
  end.
Proof. intros k [<-|[<-|[]]]; vm_compute; (split; [reflexivity|discriminate]). Qed.
