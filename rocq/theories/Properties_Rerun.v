(** * Properties_Rerun: runs on a used instance (C96) *)
From Coq Require Import QArith.
From Verif Require Import PyBase PyBaseFacts Num M_Gas M_Forcing M_Carbon M_CarbonBox M_Driver M_Results M_BoxRun Spec_Driver Spec_Rerun P_Rerun2 P_Natural Properties_Coupled.

(** A run with the default carbon cycle on an instance that has been used, whatever the runs before were and however they ended, gives what
    the same run gives on a new instance: the same exception, the same files, the same arrays and frames. *)
Theorem C96_default_carbon_cycle : forall (A : Type) (N : Num A) (T : Type) (th : thermal A T) nan cp sc c gt gt' t0 cc cc' as_dict carbon r,
  distinct_outputs (t_names th) -> earlier_runs (t_names th) gt gt' r ->
  same_outcome (coupled_run nan cp sc th c gt t0 (cc_reset cp cc) as_dict carbon []) (coupled_run nan cp sc th c gt' t0 (cc_reset cp cc') as_dict carbon r).
Proof. intros A N T. exact (@default_rerun A N T). Qed.
Print Assumptions C96_default_carbon_cycle.

Theorem C96_box_carbon_cycle : forall (A : Type) (N : Num A) (T : Type) (th : thermal A T) nan bp sc c gt gt' t0 as_dict carbon r,
  distinct_outputs (t_names th) -> earlier_runs (t_names th) gt gt' r ->
  same_outcome (box_coupled_run nan bp sc th c gt t0 as_dict carbon []) (box_coupled_run nan bp sc th c gt' t0 as_dict carbon r).
Proof. intros A N T. exact (@box_rerun A N T). Qed.
Print Assumptions C96_box_carbon_cycle.

(** Any carbon cycle, if the difference between the two states it starts from does not matter to it. *)
Theorem C96_any_carbon_cycle : forall (A : Type) (N : Num A) (T : Type) (th : thermal A T), distinct_outputs (t_names th) ->
  forall nan CC year data sc c gt gt' t0 (cc0 cc0' : CC) E as_dict carbon r, forgets year data E -> E cc0 cc0' -> earlier_runs (t_names th) gt gt' r ->
  same_outcome (any_run nan CC year data sc th c gt t0 cc0 as_dict carbon []) (any_run nan CC year data sc th c gt' t0 cc0' as_dict carbon r).
Proof. intros A N T. exact (@any_rerun A N T). Qed.
Print Assumptions C96_any_carbon_cycle.

(** A run leaves the gas table as it was, except for the natural emissions of CH4 and N2O. *)
Theorem C96_gas_table : forall (A : Type) (N : Num A) (T : Type) (th : thermal A T) nan CC year data sc c gt t0 (cc0 : CC) as_dict carbon r,
  same_gases gt (s_gas (snd (o_handler (any_run nan CC year data sc th c gt t0 cc0 as_dict carbon r)))).
Proof. intros A N T. exact (@run_gases A N T). Qed.
Print Assumptions C96_gas_table.

(** The first run leaves other natural emissions, a warmer mixed layer and a carbon cycle frame. The second run repeats the first one's numbers,
    the frame it does not produce itself stays. (That the reset matters is seen in C76_example.) *)
Definition rx_table : dict (gas Q) := dset kx_table "CH4" (kx_gas "ppb" 0 3).
Definition rx_first : outcome Q (handler Q) :=
  coupled_run (N := QNum) (- 999)%Q kx_cc (kx_scenario false) kx_thermal kx_inst rx_table tt (cc_init (N := QNum) kx_cc) true true [].
Definition rx_second (cc : cc_state Q) : outcome Q (handler Q) :=
  coupled_run (N := QNum) (- 999)%Q kx_cc (kx_scenario false) kx_thermal kx_inst (s_gas (snd (o_handler rx_first))) tt cc true false (o_results rx_first).
Definition rx_reset := cc_reset (N := QNum) kx_cc (fst (o_handler rx_first)).
Example C96_evaluated :
  o_exn rx_first = None /\
  (option_map g_nat (dget rx_table "CH4"), option_map g_nat (dget (s_gas (snd (o_handler rx_first))) "CH4")) = (Some 3, Some 0)%Q /\
  Qeq_bool (h_ml rx_reset) (h_ml (cc_init (N := QNum) kx_cc)) = false /\
  (o_exn (rx_second rx_reset), kx_array "dT_glob" (rx_second rx_reset), kx_column "concentrations" "CO2" (rx_second rx_reset)) =
    (None, kx_array "dT_glob" rx_first, kx_column "concentrations" "CO2" rx_first) /\
  kx_column "carbon cycle" "Ocean carbon flux" (rx_second rx_reset) = kx_column "carbon cycle" "Ocean carbon flux" rx_first /\
  kx_column "carbon cycle" "Ocean carbon flux" (rx_second rx_reset) <> None.
Proof. vm_compute. repeat split; discriminate. Qed.
(** the instance of the example is used in the sense of the theorem *)
Example C96_used : earlier_runs (N := QNum) (t_names kx_thermal) rx_table (s_gas (snd (o_handler rx_first))) (o_results rx_first).
Proof. unfold rx_first. exact (used_default (N := QNum) kx_thermal (- 999)%Q kx_cc (kx_scenario false) kx_inst rx_table tt _ true true). Qed.

(** Which natural emissions a completed run leaves in the gas table: those of the last year of the series the run was given, if that year is one
    with emissions; in a concentration run, or if all years are before the emissions start, the entry of the gas stays as it was. *)
Theorem C96_natural_left : forall (A : Type) (N : Num A) (T : Type) (th : thermal A T) nan CC year data sc c gt t0 (cc0 : CC) as_dict carbon r out k series g,
  any_run nan CC year data sc th c gt t0 cc0 as_dict carbon r = out -> o_exn out = None -> d_rf c = None -> (0 < d_years c)%nat ->
  In (k, series) [("CH4", c_nat_ch4 sc); ("N2O", c_nat_n2o sc)] -> dget gt k = Some g -> g_unit g <> "-" -> dmem (fr_cols (c_erf sc)) k = false ->
  let last := (d_start c + Z.of_nat (d_years c) - 1)%Z in
  exists g', dget (s_gas (snd (o_handler out))) k = Some g' /\
    (conc_run (c_p sc) = true \/ (last < emstart (c_p sc))%Z -> g' = g) /\
    (conc_run (c_p sc) = false -> (emstart (c_p sc) <= last)%Z -> fr_get series k last = Ok (g_nat g')).
Proof. intros A N T th nan CC year data sc c. exact (natural_left th nan CC year data sc c). Qed.
Print Assumptions C96_natural_left.

(** natural emissions of 5 in 2000 and 6 in 2001: a run with emissions leaves 6, a concentration run the 3 of the table *)
Definition rx_natural (crun : bool) : outcome Q (handler Q) :=
  let sc := kx_scenario crun in
  coupled_run (N := QNum) (- 999)%Q kx_cc
    {| c_p := c_p sc; c_conc := c_conc sc; c_emis := c_emis sc; c_nat_ch4 := Build_frame [2000; 2001]%Z [("CH4", [5; 6]%Q)]; c_nat_n2o := c_nat_n2o sc;
       c_pert := c_pert sc; c_pc := c_pc sc; c_erf := c_erf sc |} kx_thermal kx_inst rx_table tt (cc_init (N := QNum) kx_cc) true false [].
Example C96_natural_example :
  map (fun b => (o_exn (rx_natural b), option_map g_nat (dget (s_gas (snd (o_handler (rx_natural b)))) "CH4"))) [false; true] = [(None, Some 6); (None, Some 3)]%Q.
Proof. vm_compute. reflexivity. Qed.
