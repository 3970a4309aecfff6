(** * Properties_Files: the files of a run hold what the dictionary of the same run holds (C97) *)
From Coq Require Import QArith.
From Verif Require Import PyBase PyBaseFacts Num M_Gas M_Forcing M_Carbon M_CarbonBox M_TwoLayer M_Driver M_Results M_BoxRun Spec_Driver Spec_Files P_Files Properties_Coupled.

(** Both ways of running end alike; if they end well, every file holds the columns that the other run returns under the matching key. *)
Theorem C97_files_and_dictionary : forall (A : Type) (N : Num A) (T : Type) (th : thermal A T), all_columns (t_names th) ->
  forall nan CC year data sc c gt t0 (cc0 : CC) carbon r, d_rf c = None ->
  let out := any_run nan CC year data sc th c gt t0 cc0 true carbon r in
  let out' := any_run nan CC year data sc th c gt t0 cc0 false carbon r in
  o_exn out = o_exn out' /\ (o_exn out = None -> same_data carbon out out') /\
  (forall k, In k (output_names (t_names th)) -> ~ In k ["emissions"; "concentrations"; "forcing"; "carbon cycle"] -> dget (o_results out) k = dget (o_results out') k).
Proof. intros A N T. exact (@c97 A N T). Qed.
Print Assumptions C97_files_and_dictionary.
(** The upwelling-diffusion model has all columns, the two-layer model has not (C54). *)
Theorem C97_upwelling_diffusion : forall (A : Type) (N : Num A) p, all_columns (t_names (ud_thermal (A := A) p)).
Proof. intros A N p. exact ud_all_columns. Qed.
Print Assumptions C97_upwelling_diffusion.
Theorem C97_two_layer : ~ all_columns tl_names.
Proof. exact tl_missing. Qed.
Print Assumptions C97_two_layer.

(** a thermal model with the names of the upwelling-diffusion model *)
Definition fx_thermal : thermal Q unit :=
  {| t_names := ud_names; t_year := fun _ i => Ok (tt, map (fun kv => (snd kv, Qred (3 * i_nh i))) ud_names) |}.
Definition fx_run (as_dict carbon : bool) : outcome Q (handler Q) :=
  coupled_run (N := QNum) (- 999)%Q kx_cc (kx_scenario false) fx_thermal kx_inst kx_table tt (cc_init (N := QNum) kx_cc) as_dict carbon [].
Definition fx_file (f k : string) (o : outcome Q (handler Q)) : list (option (list Q)) :=
  map (fun w => dget (snd w) k) (filter (fun w => String.eqb (fst w) f) (o_files o)).
Example C97_evaluated :
  (o_exn (fx_run true true), o_exn (fx_run false true)) = (None, None) /\
  map fst (o_files (fx_run false true)) = ["em"; "conc"; "forc"; "carbon"; "carbon"; "ohc"; "rib"; "temp"; "sunvolc"] /\
  o_files (fx_run true true) = [] /\
  fx_file "conc" "CO2" (fx_run false true) = [kx_column "concentrations" "CO2" (fx_run true true)] /\
  fx_file "carbon" "Ocean carbon flux" (fx_run false true) =
    [kx_column "carbon cycle" "Ocean carbon flux" (fx_run true true); kx_column "carbon cycle" "Ocean carbon flux" (fx_run true true)] /\
  fx_file "temp" "dT_SHsea" (fx_run false true) = [kx_array "dT_SHsea" (fx_run true true)] /\ kx_array "dT_SHsea" (fx_run true true) <> None.
Proof. vm_compute. repeat split; discriminate. Qed.
