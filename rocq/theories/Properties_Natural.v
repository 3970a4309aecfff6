(** * Properties_Natural: a gas table handed from a run to the next instance (C96) *)
From Coq Require Import QArith.
From Verif Require Import PyBase PyBaseFacts Num M_Gas M_Forcing M_Driver M_Input M_Results M_BoxRun M_Reading Spec_Driver Spec_Input Spec_Reading P_Natural2.
From Verif Require Properties_Coupled Properties_Rerun.

(** A run writes into the gas table, and the table may be an object that the caller uses again. An instance built afterwards from that object,
    with no natural emissions of its own, has the last year's natural emissions of the run before in all its years, and not those of the table the
    caller made. *)
Theorem C96_table_handed_on : forall (A : Type) (N : Num A) nan fs object dir cwd (T : Type) (th : thermal A T) CC year data sc c gt t0 (cc0 : CC) as_dict carbon r out
    k series g what cfg v lines line t,
  any_run nan CC year data sc th c gt t0 cc0 as_dict carbon r = out -> o_exn out = None -> d_rf c = None -> (0 < d_years c)%nat ->
  In (what, k, series) [("nat_ch4", "CH4", c_nat_ch4 sc); ("nat_n2o", "N2O", c_nat_n2o sc)] -> dget gt k = Some g -> g_unit g <> "-" -> dmem (fr_cols (c_erf sc)) k = false ->
  let last := (d_start c + Z.of_nat (d_years c) - 1)%Z in conc_run (c_p sc) = false -> (emstart (c_p sc) <= last)%Z ->
  dget cfg "gaspam_file" = None -> dget cfg "gaspam_data" = Some v -> object v = Some (TGas lines) ->
  dget lines k = Some line -> dget (s_gas (snd (o_handler out))) k = Some (gl_gas line) ->
  given cfg what = false -> input nan fs object dir cwd cfg what t ->
  exists years n, run_years_of cfg years /\ fr_get series k last = Ok n /\ t = TFrame (Build_frame years [(k, map (fun _ => n) years)]).
Proof. intros A N nan fs object dir cwd T. exact (handed_on nan fs object dir cwd). Qed.
Print Assumptions C96_table_handed_on.

(** The table gives 3 for CH4, the series of the first run 5 and 6. The same configuration read before and after that run: *)
Definition nt_lines (gt : dict (gas Q)) : dict (gasline Q) :=
  map (fun kg => (fst kg, {| gl_em_unit := "Tg"; gl_gas := snd kg |}))
    (gt ++ map (fun k => (k, Properties_Coupled.kx_gas "-" 0 0)) ["OTHER"; "SO4_IND"; "TROP_O3"; "STRAT_O3"; "STRAT_H2O"; "BMB_AEROS"]).
Definition nt_fs : files Q :=
  {| fs_exists := fun _ => true; fs_first_line := fun _ => Err FileNotFoundError; fs_numbers := fun _ => Err FileNotFoundError;
     fs_components := fun _ => Err FileNotFoundError; fs_gas := fun _ => Err FileNotFoundError; fs_column := fun _ => Err FileNotFoundError;
     fs_years := fun _ => Err FileNotFoundError; fs_perturb := fun _ => Err FileNotFoundError; fs_rows := fun _ => Err FileNotFoundError |}.
Definition nt_read (gt : dict (gas Q)) : result (thing Q) :=
  do h <- open_inputs (N := QNum) (- 999)%Q nt_fs (fun _ => Some (TGas (nt_lines gt))) "/data" "/here"
            [("nystart", VInt 1998); ("nyend", VInt 2000); ("gaspam_data", VStr "table")];
  get (N := QNum) (- 999)%Q nt_fs (fun _ => Some (TGas (nt_lines gt))) h "nat_ch4".
Example C96_handed_example :
  nt_read Properties_Rerun.rx_table = Ok (TFrame (Build_frame [1998; 1999; 2000]%Z [("CH4", [3; 3; 3]%Q)])) /\
  nt_read (s_gas (snd (o_handler (Properties_Rerun.rx_natural false)))) = Ok (TFrame (Build_frame [1998; 1999; 2000]%Z [("CH4", [6; 6; 6]%Q)])) /\
  nt_read (s_gas (snd (o_handler (Properties_Rerun.rx_natural true)))) = Ok (TFrame (Build_frame [1998; 1999; 2000]%Z [("CH4", [3; 3; 3]%Q)])).
Proof. vm_compute. repeat split. Qed.
