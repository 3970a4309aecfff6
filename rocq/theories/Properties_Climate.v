(** * Properties_Climate: what the climate acts on (C95) *)
From Coq Require Import QArith.
From Verif Require Import PyBase PyBaseFacts Num M_Gas M_Forcing M_Carbon M_CarbonBox M_TwoLayer M_Driver M_Results M_BoxRun Spec_Driver Spec_Coupled Spec_Climate
  P_Climate2 Properties_Coupled.

(** Any two carbon cycles, thermal models, solar and volcanic forcings, efficiencies. *)
Theorem C95_climate_acts_on_co2_only : forall (A : Type) (N : Num A) (T T' : Type) (nan : A) (CC CC' : Type) year year' data data' sc sc'
    (th : thermal A T) (th' : thermal A T') c c' gt t0 t0' (cc0 : CC) (cc0' : CC'), same_emissions sc sc' c c' -> forall carbon carbon' r r' out out',
  any_run nan CC year data sc th c gt t0 cc0 true carbon r = out -> any_run nan CC' year' data' sc' th' c' gt t0' cc0' true carbon' r' = out' ->
  o_exn out = None -> o_exn out' = None ->
  exists emis conc conc' forc forc',
    dget (o_results out) "emissions" = Some (Fr emis) /\ dget (o_results out') "emissions" = Some (Fr emis) /\
    dget (o_results out) "concentrations" = Some (Fr conc) /\ dget (o_results out') "concentrations" = Some (Fr conc') /\
    dget (o_results out) "forcing" = Some (Fr forc) /\ dget (o_results out') "forcing" = Some (Fr forc') /\
    fr_index conc = fr_index conc' /\ dkeys (fr_cols conc) = dkeys (fr_cols conc') /\ (forall k, unmoved (c_p sc) k -> dget (fr_cols conc) k = dget (fr_cols conc') k) /\
    fr_index forc = fr_index forc' /\ dkeys (fr_cols forc) = dkeys (fr_cols forc') /\
    (forall k, unaffected (c_p sc) (c_p sc') c c' (component_of k) -> dget (fr_cols forc) k = dget (fr_cols forc') k).
Proof. intros A N T T'. exact (@c95 A N T T'). Qed.
Print Assumptions C95_climate_acts_on_co2_only.

(** The default carbon cycle against the box carbon cycle. *)
Theorem C95_carbon_cycles : forall (A : Type) (N : Num A) (T T' : Type) (nan : A) cp bp sc sc' (th : thermal A T) (th' : thermal A T') c c' gt t0 t0' cc0,
  same_emissions sc sc' c c' -> forall carbon carbon' r r' out out',
  coupled_run nan cp sc th c gt t0 cc0 true carbon r = out -> box_coupled_run nan bp sc' th' c' gt t0' true carbon' r' = out' ->
  o_exn out = None -> o_exn out' = None ->
  exists conc conc' forc forc',
    dget (o_results out) "concentrations" = Some (Fr conc) /\ dget (o_results out') "concentrations" = Some (Fr conc') /\
    dget (o_results out) "forcing" = Some (Fr forc) /\ dget (o_results out') "forcing" = Some (Fr forc') /\
    (forall k, unmoved (c_p sc) k -> dget (fr_cols conc) k = dget (fr_cols conc') k) /\
    (forall k, unaffected (c_p sc) (c_p sc') c c' (component_of k) -> dget (fr_cols forc) k = dget (fr_cols forc') k).
Proof. exact c95_box. Qed.
Print Assumptions C95_carbon_cycles.

(** Two runs that differ in the response of the climate, the solar forcing and the efficiency of sulfate, with overlapping absorption. *)
Definition wx_table : dict (gas Q) :=
  map (fun kg => (fst kg, {| g_unit := g_unit (snd kg); g_beta := g_beta (snd kg); g_alpha := g_alpha (snd kg); g_tau1 := g_tau1 (snd kg); g_tau2 := 1;
     g_tau3 := 1; g_nat := g_nat (snd kg); g_sarf := 1 |}%Q)) kx_table.
Definition wx_thermal (f : Q) : thermal Q unit :=
  {| t_names := [("dT_glob", "dtemp")]; t_year := fun _ i => Ok (tt, [("dtemp", Qred (f * i_nh i))%Q]) |}.
Definition wx_scenario (q : Q) (crun : bool) : scenario Q :=
  let sc := kx_scenario crun in
  {| c_p := {| nystart := 2000; nyend := 2001; emstart := 2001; conc_run := crun; lifetime_mode := ""; just_one := None; ref_yr := 2000;
       qbmb := 0%Q; qo3 := 0%Q; qdirso2 := q; qindso2 := 0%Q; qbc := 0%Q; qoc := 0%Q; qh2o_ch4 := 0%Q; qnmvoc := 0%Q; qnh3 := 0%Q; qnox := 0%Q;
       cl_dict := []; br_dict := [] |};
     c_conc := c_conc sc; c_emis := c_emis sc; c_nat_ch4 := c_nat_ch4 sc; c_nat_n2o := c_nat_n2o sc; c_pert := c_pert sc; c_pc := c_pc sc; c_erf := c_erf sc |}.
Definition wx_inst (s : Q) : inst Q :=
  {| d_start := 2000; d_end := 2001; d_rf := None; d_sun := [s; 0]%Q; d_luc := d_luc kx_inst; d_vn := d_vn kx_inst; d_vs := d_vs kx_inst |}.
Definition wx_run (crun : bool) (f q s : Q) : outcome Q (handler Q) :=
  coupled_run (N := QNum) (- 999)%Q kx_cc (wx_scenario q crun) (wx_thermal f) (wx_inst s) wx_table tt (cc_init (N := QNum) kx_cc) true false [].
Lemma wx_same crun q q' s s' : same_emissions (wx_scenario q crun) (wx_scenario q' crun) (wx_inst s) (wx_inst s').
Proof. constructor; try reflexivity. constructor; reflexivity. Qed.
Definition wx_equal (a b : option (list Q)) : bool :=
  match a, b with
  | Some l, Some m => Nat.eqb (List.length l) (List.length m) && forallb (fun xy => Qeq_bool (fst xy) (snd xy)) (combine l m)
  | _, _ => false
  end.
(** The concentration of nitrous oxide is the same in both runs, its forcing is not: it depends on the concentration of CO2.
    (The rational numbers of this example have no roots and exponentials; the values themselves mean nothing.) *)
Example C95_evaluated :
  let a := wx_run false 3 (- 1) (Qmake 1 2) in let b := wx_run false 5 (- 2) (Qmake 3 2) in
  o_exn a = None /\ o_exn b = None /\
  map (fun k => wx_equal (kx_column "concentrations" k a) (kx_column "concentrations" k b)) ["CO2"; "CH4"; "N2O"; "SF6"] = [false; true; true; true] /\
  map (fun k => wx_equal (kx_column "forcing" k a) (kx_column "forcing" k b)) ["CO2"; "CH4"; "N2O"; "SO4_DIR"; "BC"; "SF6"; "LANDUSE"; "Total_forcing"] =
    [false; true; false; false; true; true; true; false].
Proof. vm_compute. repeat split. Qed.
Example C95_unaffected : unaffected (c_p (wx_scenario (- 1) false)) (c_p (wx_scenario (- 2) false)) (wx_inst (Qmake 1 2)) (wx_inst (Qmake 3 2)) "BC" /\
  unaffected (c_p (wx_scenario (- 1) true)) (c_p (wx_scenario (- 2) true)) (wx_inst (Qmake 1 2)) (wx_inst (Qmake 3 2)) "CO2" /\
  ~ unaffected (c_p (wx_scenario (- 1) false)) (c_p (wx_scenario (- 2) false)) (wx_inst (Qmake 1 2)) (wx_inst (Qmake 3 2)) (component_of "SO4_DIR").
Proof.
  split; [|split].
  - split; [discriminate|]. split; [right; intros [H|[H|[]]]; discriminate H|]. split; [reflexivity|discriminate].
  - split; [discriminate|]. split; [left; reflexivity|]. split; [reflexivity|discriminate].
  - intros (_ & _ & H & _). discriminate H.
Qed.
