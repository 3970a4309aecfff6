(** * Properties_Longer: a longer run from the same files and the same configuration (C112) *)
From Coq Require Import Lia QArith.
From Verif Require Import PyBase PyBaseFacts Num M_Utils M_Pams M_Gas M_Driver M_Results M_Parallel M_Input M_Whole M_WholeBox M_Reading
  Spec_Gas Spec_Pams Spec_Parallel Spec_Numbers Spec_WholeBox Spec_Input Spec_Reading Spec_Driver Spec_Reader Spec_Results Spec_Coupled Spec_Span Spec_Longer
  P_Reading5 P_Longer P_Longer2 Properties_Whole Properties_Reading.
Local Open Scope Z_scope.

Theorem C112_longer_run : forall (A : Type) (N : Num A) nan number float_of fs object dir cwd cfg cfg' (x x' : data A) first last last' em ry pc pe fc fe cs c m0 m0' m m' b b',
  wf cfg -> wf cfg' -> other_end cfg cfg' -> run_window cfg first last -> run_window cfg' first last' -> first <= last <= last' -> Forall dictionaries (cs ++ [c]) ->
  read_data nan fs object dir cwd cfg = Ok x -> read_data nan fs object dir cwd cfg' = Ok x' -> x_forc x = None ->
  dget cfg "concentrations_file" = Some pc -> fs_years fs (CV pc) = Ok fc -> tidy fc -> Spec_Reading.covers fc first last' ->
  dget cfg "emissions_file" = Some pe -> fs_years fs (CV pe) = Ok fe -> tidy fe -> Spec_Reading.covers fe first last' -> ~ In "CO2_FF" (yf_names fe) -> ~ In "CO2_AFOLU" (yf_names fe) ->
  wf (x_gas x) -> (forall k, In k reserved -> ~ In k (dkeys (x_gas x))) ->
  (forall k, ordinary (x_gas x) k -> In k (yf_names fc) /\ exists col, emission_column k = Some col /\ In col (yf_names fe)) ->
  whole_number (num_or (Some cfg) "emstart" (VInt 1850)) = Ok em -> (x_conc_run x = true \/ first < em /\ (em = last -> last' = last)) ->
  whole_number (num_or (cf_emiconc c) "ref_yr" (VInt 2010)) = Ok ry -> ry <= last ->
  (match Spec_Pams.given (cf_emiconc c) "lifetime_mode" with Some v => as_text v | None => "TAR" end = "TAR" -> 2000 <= last) ->
  construct nan fs object dir cwd number float_of cfg = Ok m0 -> construct nan fs object dir cwd number float_of cfg' = Ok m0' ->
  model_after nan number m0 cs m -> model_after nan number m0' cs m' ->
  model_run nan number m (cf_udm c) (cf_emiconc c) (cf_carbon c) = Ok b -> model_run nan number m' (cf_udm c) (cf_emiconc c) (cf_carbon c) = Ok b' ->
  exists cl, driver_thermal cfg = Ok cl /\ agree_until first last last last' (x_gas x) cl (model_results b) (model_results b').
Proof. exact @c112. Qed.
Print Assumptions C112_longer_run.
(** The same for two disks whose files agree from the first year of the run to the year [mid], and runs that go on to [last] and [last']: whatever the files say about later years, both report the same up to [mid]. *)
Theorem C112_later_years : forall (A : Type) (N : Num A) nan number float_of fs fs' object dir cwd cfg cfg' (x x' : data A) first mid last last' em ry pc pe fc fc' fe fe' cs c m0 m0' m m' b b',
  wf cfg -> wf cfg' -> other_end cfg cfg' -> run_window cfg first last -> run_window cfg' first last' -> first <= mid /\ mid <= last /\ mid <= last' -> same_in_window first mid fs fs' -> Forall dictionaries (cs ++ [c]) ->
  read_data nan fs object dir cwd cfg = Ok x -> read_data nan fs' object dir cwd cfg' = Ok x' -> x_forc x = None ->
  dget cfg "concentrations_file" = Some pc -> fs_years fs (CV pc) = Ok fc -> tidy fc -> Spec_Reading.covers fc first last -> fs_years fs' (CV pc) = Ok fc' -> tidy fc' -> Spec_Reading.covers fc' first last' ->
  dget cfg "emissions_file" = Some pe -> fs_years fs (CV pe) = Ok fe -> tidy fe -> Spec_Reading.covers fe first last -> fs_years fs' (CV pe) = Ok fe' -> tidy fe' -> Spec_Reading.covers fe' first last' ->
  ~ In "CO2_FF" (yf_names fe) -> ~ In "CO2_AFOLU" (yf_names fe) ->
  wf (x_gas x) -> (forall k, In k reserved -> ~ In k (dkeys (x_gas x))) ->
  (forall k, ordinary (x_gas x) k -> In k (yf_names fc) /\ exists col, emission_column k = Some col /\ In col (yf_names fe)) ->
  whole_number (num_or (Some cfg) "emstart" (VInt 1850)) = Ok em -> (x_conc_run x = true \/ first < em /\ (mid < em \/ (last <= em <-> last' <= em))) ->
  whole_number (num_or (cf_emiconc c) "ref_yr" (VInt 2010)) = Ok ry -> ry <= mid ->
  (match Spec_Pams.given (cf_emiconc c) "lifetime_mode" with Some v => as_text v | None => "TAR" end = "TAR" -> 2000 <= mid) ->
  construct nan fs object dir cwd number float_of cfg = Ok m0 -> construct nan fs' object dir cwd number float_of cfg' = Ok m0' ->
  model_after nan number m0 cs m -> model_after nan number m0' cs m' ->
  model_run nan number m (cf_udm c) (cf_emiconc c) (cf_carbon c) = Ok b -> model_run nan number m' (cf_udm c) (cf_emiconc c) (cf_carbon c) = Ok b' ->
  exists cl, driver_thermal cfg = Ok cl /\ agree_until first mid last last' (x_gas x) cl (model_results b) (model_results b').
Proof. exact @c112_disks. Qed.
Print Assumptions C112_later_years.

(** ** Example: the files of [Properties_Reading] with the years 1999 to 2001 and 1999 to 2002, and emissions from 2000 on; over the rationals *)
Definition ox_cfg (first last em : Z) : dict pyval := dset (dset (dset rx_cfg "nystart" (VInt first)) "nyend" (VInt last)) "emstart" (VInt em).
Definition ox_run (extra : Q) (cfg : dict pyval) (ref : Z) : result (model Q) :=
  do m <- construct (N := QNum) (- 999)%Q (rx_fs rx_names "ppb" extra) rx_object "/data" "/here" wx_number FFin cfg;
  model_run (N := QNum) (- 999)%Q wx_number m (Some []) (Some [("ref_yr", VInt ref)]) (Some []).
Definition ox_series (extra : Q) (cfg : dict pyval) (ref : Z) : option (list Q * list Q) :=
  match ox_run extra cfg ref with
  | Ok m => match dget (model_results m) "dT_glob", dget (model_results m) "concentrations" with
            | Some (Arr t), Some (Fr f) => Some (map Qred t, match dget (fr_cols f) "CO2" with Some c => map Qred c | None => [] end) | _, _ => None end
  | Err _ => None
  end.
Example C112_example :
  wf (ox_cfg 1999 2001 2000) /\ wf (ox_cfg 1999 2002 2000) /\ other_end (ox_cfg 1999 2001 2000) (ox_cfg 1999 2002 2000) /\ run_window (ox_cfg 1999 2001 2000) 1999 2001 /\ run_window (ox_cfg 1999 2002 2000) 1999 2002 /\
  Spec_Reading.covers (rx_concentrations 77) 1999 2002 /\ Spec_Reading.covers (rx_emissions rx_names 77) 1999 2002 /\
  (forall k, ordinary (map (fun kl => (fst kl, gl_gas (snd kl))) (rx_gases "ppb")) k ->
     In k (yf_names (rx_concentrations 77)) /\ exists col, emission_column k = Some col /\ In col (yf_names (rx_emissions rx_names 77))) /\
  match ox_series 77 (ox_cfg 1999 2001 2000) 2001, ox_series 77 (ox_cfg 1999 2002 2000) 2001 with
  | Some (t, c), Some (t', c') => t = firstn 3 t' /\ c = firstn 3 c' /\ List.length t' = 4%nat /\ List.length c' = 4%nat /\ NoDup t'
  | _, _ => False
  end.
Proof.
  split; [apply wf_lit; reflexivity|]. split; [apply wf_lit; reflexivity|]. split.
  { intros k K. unfold ox_cfg. rewrite !dget_dset. destruct (String.eqb_spec "nyend" k); [congruence|]. reflexivity. }
  split; [split; reflexivity|]. split; [split; reflexivity|]. split; [intros y Y; cbn; lia|]. split; [intros y Y; cbn; lia|]. split.
  { intros k (g & I & NI & U). assert (IK : In (k, g_unit g) (map (fun kg => (fst kg, g_unit (snd kg))) (map (fun kl => (fst kl, gl_gas (snd kl))) (rx_gases "ppb")))) by exact (in_map (fun kg => (fst kg, g_unit (snd kg))) _ _ I).
    clear I. cbn in IK. cbn in NI. assert (k = "SF6") as -> by (repeat (destruct IK as [IK|IK]; [injection IK as <- X; try (symmetry in X; contradiction); try reflexivity; exfalso; apply NI; tauto|]); destruct IK).
    split; [cbn; tauto|]. exists "SF6". split; [reflexivity|]. cbn. tauto. }
  vm_compute. split; [reflexivity|]. split; [reflexivity|]. split; [reflexivity|]. split; [reflexivity|]. repeat constructor; cbn; intuition discriminate.
Qed.
(** files that differ in the year 2002; runs from 2000 to 2002 *)
Example C112_other_files :
  same_in_window 2000 2001 (rx_fs rx_names "ppb" 77) (rx_fs rx_names "ppb" (- 5)) /\
  match ox_series 77 (ox_cfg 2000 2002 2001) 2001, ox_series (- 5) (ox_cfg 2000 2002 2001) 2001 with
  | Some (t, c), Some (t', c') => firstn 2 t = firstn 2 t' /\ firstn 2 c = firstn 2 c' /\ t <> t' /\ c <> c' /\ List.length t = 3%nat
  | _, _ => False
  end.
Proof. split; [apply C104_example|]. vm_compute. repeat split; try reflexivity; discriminate. Qed.
