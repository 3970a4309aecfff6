(** * Properties_Pams: properties of parameter handling (C01-C08, C33, C50, C75) *)
From Coq Require Import Sorted.
From Verif Require Import PyBase PyBaseFacts M_Utils M_Flat M_Pams Spec_Pams
  P_Pams P_Flat P_CarbonPams P_PamsMain P_FlatCanon P_PamsDefaults.

(** ** C01 *)
Theorem C01_completion_exact : forall required supplied used, wf required -> wf supplied ->
  wf (cut_and_check_pamset required supplied used) /\
  forall k, dget (cut_and_check_pamset required supplied used) k = spec_completed required supplied used k.
Proof. exact c01_lookup. Qed.
Print Assumptions C01_completion_exact.

Theorem C01_keys_exact : forall required supplied used k, wf required -> wf supplied ->
  In k (dkeys (cut_and_check_pamset required supplied used)) <->
  In k (dkeys required) \/ (In k (dkeys used) /\ In k (dkeys supplied)).
Proof. exact c01_keys. Qed.
Print Assumptions C01_keys_exact.

(** Heap version: result is a new dictionary, the caller's pamset and every other object
    is unchanged; only a non-empty [used] dictionary is written (with the defaults). *)
Theorem C01_caller_not_modified : forall h rreq rpam rused,
  (rreq < List.length h)%nat -> (rpam < List.length h)%nat -> (rused < List.length h)%nat ->
  rused <> rreq -> rused <> rpam ->
  let '(h', r) := cut_and_check_pamset_h h rreq rpam rused in
  hread h' r = cut_and_check_pamset (hread h rreq) (hread h rpam) (hread h rused) /\
  r = List.length h /\
  (forall q, (q < List.length h)%nat -> q <> rused -> hread h' q = hread h q) /\
  hread h' rused = match hread h rused with [] => [] | u => dupdate u (hread h rreq) end.
Proof. exact cut_and_check_h_frame. Qed.
Print Assumptions C01_caller_not_modified.

Example C01_example :
  let req := [("a", VInt 1); ("b", flt 5 10)] in
  let sup := [("b", VStr "x"); ("a", VNpFloat (FFin 3)); ("z", VInt 9); ("o", VStr "keep")] in
  wf req /\ wf sup /\
  cut_and_check_pamset req sup [("o", VNone)] =
    [("b", flt 5 10); ("a", VNpFloat (FFin 3)); ("o", VStr "keep")].
Proof. split; [apply wf_lit; reflexivity|split; [apply wf_lit; reflexivity|vm_compute; reflexivity]]. Qed.

(** ** C02 *)
Theorem C02_update_framed : forall old new updatable, wf new ->
  (forall k, dget (update_pam_if_numeric old (Some new) updatable) k = spec_updated old new updatable k) /\
  dkeys (update_pam_if_numeric old (Some new) updatable) = dkeys old /\
  update_pam_if_numeric old None updatable = old /\
  (forall k, dget (update_pam_if_numeric (update_pam_if_numeric old (Some new) updatable) (Some new) updatable) k
             = dget (update_pam_if_numeric old (Some new) updatable) k).
Proof. exact c02. Qed.
Print Assumptions C02_update_framed.

Example C02_example :
  update_pam_if_numeric [("a", VInt 1); ("b", VInt 2); ("c", VInt 3)]
    (Some [("c", VStr "no"); ("b", VInt 20); ("a", VInt 10); ("d", VInt 4)]) ["a"; "c"; "d"]
  = [("a", VInt 10); ("b", VInt 2); ("c", VInt 3)].
Proof. vm_compute; reflexivity. Qed.

(** ** C03 *)
Theorem C03_numpy_int_not_a_number : forall required supplied used k dflt z, wf required -> wf supplied ->
  dget required k = Some dflt ->
  (dget supplied k = Some (VNpInt z) -> dget (cut_and_check_pamset required supplied used) k = Some dflt) /\
  (forall v, dget supplied k = Some v -> In v [VInt z; VFloat (FFin (inject_Z z)); VNpFloat (FFin (inject_Z z))] ->
     dget (cut_and_check_pamset required supplied used) k = Some v).
Proof. exact c03_gate. Qed.
Print Assumptions C03_numpy_int_not_a_number.

Theorem C03_integer_preindustrial_lost : forall env p pc z c, wf match pc with Some d => d | None => [] end ->
  handler_carbon env p pc (VNpInt z) = Ok c ->
  dget (c_pam c) "preindustrial_co2_conc" = Some (flt 278 1).
Proof. exact c03_preindustrial. Qed.
Print Assumptions C03_integer_preindustrial_lost.

Theorem C03_float_preindustrial_kept : forall env p pc q c, wf match pc with Some d => d | None => [] end ->
  handler_carbon env p pc (VNpFloat q) = Ok c ->
  dget (c_pam c) "preindustrial_co2_conc" = Some (VNpFloat q).
Proof. exact c03_preindustrial_float. Qed.
Print Assumptions C03_float_preindustrial_kept.

Definition ex_env : handler_env :=
  {| env_conc_run := VBool false; env_forc_pert := None; env_cl := VObj 1; env_br := VObj 2;
     env_gases := ["CO2"; "SO2"; "SO2_EUR"] |}.

Example C03_example : exists c1 c2,
  handler_carbon ex_env None None (VNpInt 280) = Ok c1 /\
  handler_carbon ex_env None None (VNpFloat (FFin 280)) = Ok c2 /\
  dget (c_pam c1) "preindustrial_co2_conc" = Some (flt 278 1) /\
  dget (c_pam c2) "preindustrial_co2_conc" = Some (VNpFloat (FFin 280)).
Proof. eexists; eexists. split; [vm_compute; reflexivity|split; [vm_compute; reflexivity|split; vm_compute; reflexivity]]. Qed.

(** ** C04 *)
Theorem C04_window_immutable : forall env init hist, opt_wf init -> Forall opt_wf hist ->
  exists d, handler_reruns env (handler_init env init) hist = Ok d /\
  (forall k, In k ["idtm"; "nystart"; "nyend"; "emstart"] ->
     exists v w, dget (handler_init env init) k = Some w /\ dget d k = Some v /\
       (v = w \/ py_eqb v w = true)) /\
  dget d "conc_run" = Some (env_conc_run env).
Proof. exact c04. Qed.
Print Assumptions C04_window_immutable.

Example C04_example : exists d,
  handler_reruns ex_env (handler_init ex_env (Some [("nyend", VInt 2050)]))
    [Some [("nyend", VInt 2200); ("qbmb", flt 1 10)]; None; Some [("nystart", VInt 1); ("conc_run", VBool true)]] = Ok d /\
  dget d "nyend" = Some (VInt 2050) /\ dget d "nystart" = Some (VInt 1750) /\ dget d "conc_run" = Some (VBool false).
Proof. eexists; split; [vm_compute; reflexivity|split; [vm_compute; reflexivity|split; vm_compute; reflexivity]]. Qed.

(** ** C05 *)
Theorem C05_fresh_and_sticky : forall env init hist p, opt_wf init -> Forall opt_wf hist -> opt_wf p ->
  exists d, handler_reruns env (handler_init env init) (hist ++ [p]) = Ok d /\
  (forall k dflt, In k ["qbmb"; "qo3"; "qindso2"; "qh2o_ch4"; "ref_yr"; "qnmvoc"; "qnh3"; "qnox"] ->
     dget handler_required k = Some dflt -> dget d k = Some (num_or p k dflt)) /\
  dget d "lifetime_mode" = Some (match given p "lifetime_mode" with Some v => v | None => VStr "TAR" end) /\
  dget d "just_one" = spec_last_any "just_one" None (init :: hist ++ [p]).
Proof. exact c05. Qed.
Print Assumptions C05_fresh_and_sticky.

Example C05_example : exists d,
  handler_reruns ex_env (handler_init ex_env None)
    ([Some [("just_one", VStr "CO2"); ("qo3", flt 1 10)]; None] ++ [Some [("qbmb", flt 2 10)]]) = Ok d /\
  dget d "just_one" = Some (VStr "CO2") /\ dget d "qo3" = dget handler_required "qo3" /\
  dget d "qbmb" = Some (flt 2 10).
Proof. eexists; split; [vm_compute; reflexivity|split; [vm_compute; reflexivity|split; vm_compute; reflexivity]]. Qed.

(** ** C06 *)
Theorem C06_carbon_pams_sticky : forall c hist c', Forall opt_wf hist -> carbon_resets c hist = Ok c' ->
  (forall k v0, In k (dkeys carbon_required) -> dget (c_pam c) k = Some v0 ->
     dget (c_pam c') k = Some (spec_last_num k v0 hist)) /\
  (c_rs c = dget (c_pam c) "rs_function" -> c_rb c = dget (c_pam c) "rb_function" ->
   c_rs c' = spec_last_fun "rs_function" (c_rs c) hist /\ c_rb c' = spec_last_fun "rb_function" (c_rb c) hist).
Proof. exact c06_sticky. Qed.
Print Assumptions C06_carbon_pams_sticky.

Theorem C06_complete_set_erases_history : forall h1 h2 p c1 c2 c1' c2',
  Forall opt_wf h1 -> Forall opt_wf h2 -> wf p ->
  (forall k, In k (dkeys carbon_required) -> exists v, dget p k = Some v /\ is_num v = true) ->
  (forall k, In k (dkeys carbon_required) -> dmem (c_pam c1) k = true /\ dmem (c_pam c2) k = true) ->
  carbon_resets c1 (h1 ++ [Some p]) = Ok c1' -> carbon_resets c2 (h2 ++ [Some p]) = Ok c2' ->
  forall k, In k (dkeys carbon_required) ->
    dget (c_pam c1') k = dget (c_pam c2') k /\ dget (c_pam c1') k = dget p k.
Proof. exact c06_complete. Qed.
Print Assumptions C06_complete_set_erases_history.

Theorem C06_partial_set_depends_on_history : exists h1 h2 p c1 c2 k,
  carbon_resets cc0 (h1 ++ [Some p]) = Ok c1 /\ carbon_resets cc0 (h2 ++ [Some p]) = Ok c2 /\
  In k (dkeys carbon_required) /\ dget (c_pam c1) k <> dget (c_pam c2) k.
Proof. exact c06_partial_differs. Qed.
Print Assumptions C06_partial_set_depends_on_history.

(** The parameters meant above, and their values when none are configured. *)
Theorem C06_names : forall k, In k (dkeys carbon_required) <-> In k (map fst carbon_defaults).
Proof. exact carbon_names. Qed.
Print Assumptions C06_names.
Theorem C06_defaults : forall e, wf e -> exists c, carbon_init e None = Ok c /\
  (forall k v, In (k, v) carbon_defaults -> dget (c_pam c) k = Some v) /\
  c_x0 c = Some (VFloat (FFin (278 # 1))) /\ c_rs c = None /\ c_rb c = None.
Proof. exact carbon_defaults_init. Qed.
Print Assumptions C06_defaults.

Example C06_example : exists c', carbon_resets cc0
    [Some [("beta_f", flt 5 10); ("rb_coef0", flt 1 1); ("rb_tim0", flt 2 1)]; Some [("mixed_carbon", flt 60 1)]] = Ok c' /\
  dget (c_pam c') "beta_f" = Some (flt 5 10) /\ dget (c_pam c') "mixed_carbon" = Some (flt 60 1) /\
  c_rb c' = Some (VFun [flt 1 1] [flt 2 1]).
Proof. eexists; split; [vm_compute; reflexivity|split; [vm_compute; reflexivity|split; vm_compute; reflexivity]]. Qed.

(** ** C07 *)
Theorem C07_cfg_decay_functions_ignored : forall env cfg1 cfg2 preind, wf cfg1 -> wf cfg2 ->
  filter (fun kv => negb (smem (fst kv) ["rs_function"; "rb_function"])) cfg1 =
  filter (fun kv => negb (smem (fst kv) ["rs_function"; "rb_function"])) cfg2 ->
  driver_carbon env cfg1 preind = driver_carbon env cfg2 preind /\
  forall c, driver_carbon env cfg1 preind = Ok c -> c_rs c = None /\ c_rb c = None.
Proof. exact c07. Qed.
Print Assumptions C07_cfg_decay_functions_ignored.

Example C07_example :
  let f := VFun [flt 1 1] [flt 2 1] in
  exists c, driver_carbon ex_env [("nystart", VInt 1800); ("rb_function", f)] (flt 280 1) = Ok c /\ c_rb c = None.
Proof. eexists; split; vm_compute; reflexivity. Qed.

(** ** C08 *)
Theorem C08_model_names : forall cfg s, wf cfg ->
  (create_thermal_model s = Ok UpwellingDiffusion <-> s = "default") /\
  (create_thermal_model s = Ok TwoLayer <-> s = "twolayer") /\
  (create_thermal_model s = Err ValueError <-> s <> "default" /\ s <> "twolayer") /\
  (create_carbon_cycle_model s = Ok DefaultCarbon <-> s = "default") /\
  (create_carbon_cycle_model s = Ok BoxCarbon <-> s = "box") /\
  (create_carbon_cycle_model s = Err ValueError <-> s <> "default" /\ s <> "box") /\
  (dget cfg "thermal_model" = Some (VStr s) -> driver_thermal cfg = create_thermal_model s) /\
  (dget cfg "thermal_model" = None -> driver_thermal cfg = Ok UpwellingDiffusion) /\
  (dget cfg "carbon_cycle_model" = Some (VStr s) -> driver_carbon_class cfg = create_carbon_cycle_model s) /\
  (dget cfg "carbon_cycle_model" = None -> driver_carbon_class cfg = Ok DefaultCarbon).
Proof. exact c08. Qed.
Print Assumptions C08_model_names.

Example C08_example : driver_thermal [("thermal_model", VStr "twolayer")] = Ok TwoLayer /\
  driver_carbon_class [("carbon_cycle_model", VStr "Box")] = Err ValueError.
Proof. split; vm_compute; reflexivity. Qed.

(** ** C33 *)
Theorem C33_flat_equals_list_form : forall p rbc rbt rsc rst, wf p ->
  flat_family p "rb_coef" rbc -> flat_family p "rb_tim" rbt ->
  flat_family p "rs_coef" rsc -> flat_family p "rs_tim" rst ->
  if spec_flat_counts rbc rbt rsc rst
  then exists p', process_flat_carbon_parameters p = Ok p' /\
       forall k, dget p' k = spec_flat_lookup p rbc rbt rsc rst k
  else process_flat_carbon_parameters p = Err ValueError.
Proof. exact c33_canonical. Qed.
Print Assumptions C33_flat_equals_list_form.

(** Any dictionary, gaps allowed: values in index order, absent indices squeezed out. *)
(** Exactly the prefix followed by at least one decimal digit, and nothing else, is a flat name. *)
Theorem C33_flat_names : forall prefix k, flat_key prefix k = true <-> exists s, k = (prefix ++ s)%string /\ decimal s.
Proof. exact flat_key_spec. Qed.
Print Assumptions C33_flat_names.
Theorem C33_gaps_are_compacted : forall p prefix, wf p ->
  (forall k1 k2, In k1 (dkeys p) -> In k2 (dkeys p) -> flat_key prefix k1 = true -> flat_key prefix k2 = true ->
     flat_idx prefix k1 = flat_idx prefix k2 -> k1 = k2) ->
  exists L : list (nat * pyval), fst (extract_indexed_parameters p prefix) = map snd L /\
    StronglySorted lt (map fst L) /\
    forall i v, In (i, v) L <->
      exists k, dget p k = Some v /\ v <> VNone /\ flat_key prefix k = true /\ flat_idx prefix k = i.
Proof. exact c33_family. Qed.
Print Assumptions C33_gaps_are_compacted.

Theorem C33_gap_pairs_different_indices :
  exists p, process_flat_carbon_parameters
     [("rb_coef0", flt 5 10); ("rb_coef2", flt 25 100); ("rb_tim0", flt 25 10); ("rb_tim1", flt 10 1)] = Ok p /\
   dget p "rb_function" = Some (VFun [flt 5 10; flt 25 100] [flt 25 10; flt 10 1]).
Proof. exact c33_gap. Qed.
Print Assumptions C33_gap_pairs_different_indices.

Example C33_example :
  process_flat_carbon_parameters
    [("rs_coef1", flt 2 10); ("rb_tim0", flt 25 10); ("beta_f", flt 3 10); ("rs_tim0", flt 7 1);
     ("rb_coef0", flt 5 10); ("rs_coef0", flt 1 10)] =
  Ok [("beta_f", flt 3 10); ("rb_function", VFun [flt 5 10] [flt 25 10]);
      ("rs_function", VFun [flt 1 10; flt 2 10] [flt 7 1])].
Proof. vm_compute; reflexivity. Qed.

(** ** C50, first part: the factors (the forcing part is in Properties_Forcing) *)
Theorem C50_regional_factor_off : forall env init hist p k q,
  opt_wf init -> Forall opt_wf hist -> opt_wf p ->
  In (k, q) [("SO2", "qdirso2"); ("BC", "qbc"); ("OC", "qoc")] ->
  let dflt := match dget handler_required q with Some x => x | None => VNone end in
  let reg := existsb (String.prefix (k ++ "_")%string) (env_gases env) in
  dget (handler_init env init) q = Some (if reg then flt 0 1 else num_or init q dflt) /\
  exists d, handler_reruns env (handler_init env init) (hist ++ [p]) = Ok d /\
    dget d q = Some (if reg then flt 0 1 else num_or p q dflt).
Proof. exact c50. Qed.
Print Assumptions C50_regional_factor_off.

Example C50_example :
  dget (handler_init ex_env (Some [("qdirso2", flt 3 10); ("qbc", flt 2 10)])) "qdirso2" = Some (flt 0 1) /\
  dget (handler_init ex_env (Some [("qdirso2", flt 3 10); ("qbc", flt 2 10)])) "qbc" = Some (flt 2 10).
Proof. split; vm_compute; reflexivity. Qed.

(** ** C75 *)
Theorem C75_missing_always_raises : forall p,
  (forall k v, In (k, v) p -> v <> VStr "missing") /\ take_out_missing p = Ok p \/
  (exists k, In (k, VStr "missing") p) /\ take_out_missing p = Err RuntimeError.
Proof. exact c75. Qed.
Print Assumptions C75_missing_always_raises.

Example C75_example : take_out_missing [("a", VInt 1); ("b", VStr "missing")] = Err RuntimeError.
Proof. reflexivity. Qed.
