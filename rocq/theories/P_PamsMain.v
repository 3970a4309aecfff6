(** * P_PamsMain: the property statements about parameters, assembled *)
From Coq Require Import Sorted.
From Verif Require Import PyBase PyBaseFacts M_Utils M_Flat M_Pams Spec_Pams P_Pams P_Flat P_CarbonPams.

Lemma c01_lookup required supplied used : wf required -> wf supplied ->
  wf (cut_and_check_pamset required supplied used) /\
  forall k, dget (cut_and_check_pamset required supplied used) k = spec_completed required supplied used k.
Proof. intros H1 H2; split; [apply cut_and_check_wf | intros k; apply cut_and_check_get; assumption]. Qed.

Lemma c01_keys required supplied used k : wf required -> wf supplied ->
  In k (dkeys (cut_and_check_pamset required supplied used)) <->
  In k (dkeys required) \/ (In k (dkeys used) /\ In k (dkeys supplied)).
Proof.
  intros H1 H2. rewrite <- !dget_In_keys. unfold dmem at 1.
  rewrite cut_and_check_get by assumption. unfold spec_completed. unfold dmem.
  destruct (dget required k); destruct (dget supplied k); destruct (dget used k); intuition congruence.
Qed.

Lemma c02 old new updatable : wf new ->
  (forall k, dget (update_pam_if_numeric old (Some new) updatable) k = spec_updated old new updatable k) /\
  dkeys (update_pam_if_numeric old (Some new) updatable) = dkeys old /\
  update_pam_if_numeric old None updatable = old /\
  (forall k, dget (update_pam_if_numeric (update_pam_if_numeric old (Some new) updatable) (Some new) updatable) k
             = dget (update_pam_if_numeric old (Some new) updatable) k).
Proof.
  intros H; split; [intros k; apply upd_get, H|split; [apply upd_keys|split; [reflexivity|]]].
  intros k. rewrite upd_get by exact H. unfold spec_updated at 1. rewrite !upd_get by exact H. unfold spec_updated.
  destruct (dget old k), (dget new k); try reflexivity.
  destruct (smem k updatable), (is_num p0); reflexivity.
Qed.

Lemma c03_gate required supplied used k dflt z : wf required -> wf supplied ->
  dget required k = Some dflt ->
  (dget supplied k = Some (VNpInt z) -> dget (cut_and_check_pamset required supplied used) k = Some dflt) /\
  (forall v, dget supplied k = Some v -> In v [VInt z; VFloat (FFin (inject_Z z)); VNpFloat (FFin (inject_Z z))] ->
     dget (cut_and_check_pamset required supplied used) k = Some v).
Proof.
  intros H1 H2 Hd; split.
  - intros Hs. rewrite cut_and_check_get by assumption. unfold spec_completed. rewrite Hd, Hs. reflexivity.
  - intros v Hs Hv. rewrite cut_and_check_get by assumption. unfold spec_completed. rewrite Hd, Hs.
    simpl in Hv. destruct Hv as [<-|[<-|[<-|[]]]]; reflexivity.
Qed.

Lemma c03_preindustrial env p pc z c : wf match pc with Some d => d | None => [] end ->
  handler_carbon env p pc (VNpInt z) = Ok c ->
  dget (c_pam c) "preindustrial_co2_conc" = Some (flt 278 1).
Proof. intros H E. rewrite (handler_carbon_num env p pc (VNpInt z) c H E). reflexivity. Qed.

Lemma c03_preindustrial_float env p pc q c : wf match pc with Some d => d | None => [] end ->
  handler_carbon env p pc (VNpFloat q) = Ok c ->
  dget (c_pam c) "preindustrial_co2_conc" = Some (VNpFloat q).
Proof. intros H E. rewrite (handler_carbon_num env p pc (VNpFloat q) c H E). reflexivity. Qed.

Lemma c04 env init hist : opt_wf init -> Forall opt_wf hist ->
  exists d, handler_reruns env (handler_init env init) hist = Ok d /\
  (forall k, In k ["idtm"; "nystart"; "nyend"; "emstart"] ->
     exists v w, dget (handler_init env init) k = Some w /\ dget d k = Some v /\
       (v = w \/ py_eqb v w = true)) /\
  dget d "conc_run" = Some (env_conc_run env).
Proof.
  intros Hi Hf. destruct (reruns_total env init hist Hi Hf) as [d Hd]. exists d; split; [exact Hd|].
  exact (c04_window env init hist d Hi Hf Hd).
Qed.

Lemma c05 env init hist p : opt_wf init -> Forall opt_wf hist -> opt_wf p ->
  exists d, handler_reruns env (handler_init env init) (hist ++ [p]) = Ok d /\
  (forall k dflt, In k ["qbmb"; "qo3"; "qindso2"; "qh2o_ch4"; "ref_yr"; "qnmvoc"; "qnh3"; "qnox"] ->
     dget handler_required k = Some dflt -> dget d k = Some (num_or p k dflt)) /\
  dget d "lifetime_mode" = Some (match given p "lifetime_mode" with Some v => v | None => VStr "TAR" end) /\
  dget d "just_one" = spec_last_any "just_one" None (init :: hist ++ [p]).
Proof.
  intros Hi Hf Hp.
  assert (Hf' : Forall opt_wf (hist ++ [p])) by (apply Forall_app; split; [exact Hf | constructor; [exact Hp | constructor]]).
  destruct (reruns_total env init (hist ++ [p]) Hi Hf') as [d Hd]. exists d; split; [exact Hd|]. repeat split.
  - intros k dflt Hk Hr. destruct (fresh_after env init hist p d k Hi Hf Hp Hd Hk) as [dflt' [R E]]. congruence.
  - exact (lifetime_after env init hist p d Hi Hf Hp Hd).
  - exact (just_one_history env init (hist ++ [p]) d Hi Hf' Hd).
Qed.

Lemma c06_sticky c hist c' : Forall opt_wf hist -> carbon_resets c hist = Ok c' ->
  (forall k v0, In k (dkeys carbon_required) -> dget (c_pam c) k = Some v0 ->
     dget (c_pam c') k = Some (spec_last_num k v0 hist)) /\
  (c_rs c = dget (c_pam c) "rs_function" -> c_rb c = dget (c_pam c) "rb_function" ->
   c_rs c' = spec_last_fun "rs_function" (c_rs c) hist /\ c_rb c' = spec_last_fun "rb_function" (c_rb c) hist).
Proof.
  intros Hf H; split.
  - intros k v0 Hk Hv. exact (carbon_resets_num hist c c' k v0 Hf H Hk Hv).
  - intros H1 H2. destruct (carbon_resets_rsrb hist c c' Hf H H1 H2) as [R1 R2].
    rewrite R1, R2, H1, H2. split; apply carbon_resets_fun; auto.
Qed.

Lemma c06_complete h1 h2 p c1 c2 c1' c2' : Forall opt_wf h1 -> Forall opt_wf h2 -> wf p ->
  (forall k, In k (dkeys carbon_required) -> exists v, dget p k = Some v /\ is_num v = true) ->
  (forall k, In k (dkeys carbon_required) -> dmem (c_pam c1) k = true /\ dmem (c_pam c2) k = true) ->
  carbon_resets c1 (h1 ++ [Some p]) = Ok c1' -> carbon_resets c2 (h2 ++ [Some p]) = Ok c2' ->
  forall k, In k (dkeys carbon_required) ->
    dget (c_pam c1') k = dget (c_pam c2') k /\ dget (c_pam c1') k = dget p k.
Proof. intros F1 F2 W C M E1 E2. exact (carbon_complete h1 h2 p c1 c2 c1' c2' F1 F2 W C M E1 E2). Qed.

(** Partial sets: two histories ending in the same partial set can disagree. *)
Definition cc0 : carbon_state :=
  match carbon_init [] None with Ok c => c | Err _ => {| c_pam := []; c_x0 := None; c_rs := None; c_rb := None |} end.
Lemma c06_partial_differs : exists h1 h2 p c1 c2 k,
  carbon_resets cc0 (h1 ++ [Some p]) = Ok c1 /\ carbon_resets cc0 (h2 ++ [Some p]) = Ok c2 /\
  In k (dkeys carbon_required) /\ dget (c_pam c1) k <> dget (c_pam c2) k.
Proof.
  exists [Some [("beta_f", flt 5 10)]], [], [("mixed_carbon", flt 60 1)].
  eexists; eexists; exists "beta_f". split; [vm_compute; reflexivity|split; [vm_compute; reflexivity|]].
  split; [vm_compute; tauto | vm_compute; discriminate].
Qed.

Lemma c07 env cfg1 cfg2 preind : wf cfg1 -> wf cfg2 ->
  filter (fun kv => negb (smem (fst kv) ["rs_function"; "rb_function"])) cfg1 =
  filter (fun kv => negb (smem (fst kv) ["rs_function"; "rb_function"])) cfg2 ->
  driver_carbon env cfg1 preind = driver_carbon env cfg2 preind /\
  forall c, driver_carbon env cfg1 preind = Ok c -> c_rs c = None /\ c_rb c = None.
Proof.
  intros H1 H2 H; split; [exact (rfuns_nonint env cfg1 cfg2 preind H1 H2 H)|].
  intros c; apply driver_carbon_builtin.
Qed.

Lemma driver_cfg_name cfg key : wf cfg -> key = "thermal_model" \/ key = "carbon_cycle_model" ->
  dget (driver_cfg cfg) key = dget cfg key.
Proof.
  intros H Hk. unfold driver_cfg. rewrite cut_and_check_get; [|apply wf_lit; reflexivity | exact H].
  unfold spec_completed. destruct Hk as [-> | ->]; simpl; destruct (dget cfg _); reflexivity.
Qed.

Lemma c08 cfg s : wf cfg ->
  (create_thermal_model s = Ok UpwellingDiffusion <-> s = "default") /\
  (create_thermal_model s = Ok TwoLayer <-> s = "twolayer") /\
  (create_thermal_model s = Err ValueError <-> s <> "default" /\ s <> "twolayer") /\
  (create_carbon_cycle_model s = Ok DefaultCarbon <-> s = "default") /\
  (create_carbon_cycle_model s = Ok BoxCarbon <-> s = "box") /\
  (create_carbon_cycle_model s = Err ValueError <-> s <> "default" /\ s <> "box") /\
  (dget cfg "thermal_model" = Some (VStr s) -> driver_thermal cfg = create_thermal_model s) /\
  (dget cfg "thermal_model" = None -> driver_thermal cfg = Ok UpwellingDiffusion) /\
  (dget cfg "carbon_cycle_model" = Some (VStr s) -> driver_carbon_class cfg = create_carbon_cycle_model s) /\
  (dget cfg "carbon_cycle_model" = None -> driver_carbon_class cfg = Ok DefaultCarbon).
Proof.
  intros Hwf. unfold create_thermal_model, create_carbon_cycle_model.
  assert (T1 : s = "default" \/ s <> "default") by (destruct (string_dec s "default"); auto).
  assert (T2 : s = "twolayer" \/ s <> "twolayer") by (destruct (string_dec s "twolayer"); auto).
  assert (T3 : s = "box" \/ s <> "box") by (destruct (string_dec s "box"); auto).
  split; [|split; [|split; [|split; [|split; [|split; [|split; [|split; [|split]]]]]]]].
  - destruct (String.eqb_spec s "default"); [tauto|]. destruct (String.eqb_spec s "twolayer"); split; intros; (discriminate || contradiction).
  - destruct (String.eqb_spec s "default"); [subst; split; discriminate|]. destruct (String.eqb_spec s "twolayer"); split; intros; (discriminate || contradiction || auto).
  - destruct (String.eqb_spec s "default"); [split; [discriminate|tauto]|]. destruct (String.eqb_spec s "twolayer"); split; intros; (discriminate || tauto).
  - destruct (String.eqb_spec s "default"); [tauto|]. destruct (String.eqb_spec s "box"); split; intros; (discriminate || contradiction).
  - destruct (String.eqb_spec s "default"); [subst; split; discriminate|]. destruct (String.eqb_spec s "box"); split; intros; (discriminate || contradiction || auto).
  - destruct (String.eqb_spec s "default"); [split; [discriminate|tauto]|]. destruct (String.eqb_spec s "box"); split; intros; (discriminate || tauto).
  - intros H. unfold driver_thermal, model_name. rewrite driver_cfg_name, H by auto. reflexivity.
  - intros H. unfold driver_thermal, model_name. rewrite driver_cfg_name, H by auto. reflexivity.
  - intros H. unfold driver_carbon_class, model_name. rewrite driver_cfg_name, H by auto. reflexivity.
  - intros H. unfold driver_carbon_class, model_name. rewrite driver_cfg_name, H by auto. reflexivity.
Qed.

(** C33: order of one family. *)
Lemma c33_family p prefix : wf p ->
  (forall k1 k2, In k1 (dkeys p) -> In k2 (dkeys p) -> flat_key prefix k1 = true -> flat_key prefix k2 = true ->
     flat_idx prefix k1 = flat_idx prefix k2 -> k1 = k2) ->
  exists L : list (nat * pyval), fst (extract_indexed_parameters p prefix) = map snd L /\
    StronglySorted lt (map fst L) /\
    forall i v, In (i, v) L <->
      exists k, dget p k = Some v /\ v <> VNone /\ flat_key prefix k = true /\ flat_idx prefix k = i.
Proof.
  intros Hwf Hu. destruct (extract_indexed_parameters p prefix) as [vals keys] eqn:E.
  exact (proj2 (extract_spec p prefix vals keys Hwf Hu E)).
Qed.

(** Gaps are compacted: coefficient 2 gets paired with timescale 1. *)
Lemma c33_gap :
  exists p, process_flat_carbon_parameters
     [("rb_coef0", flt 5 10); ("rb_coef2", flt 25 100); ("rb_tim0", flt 25 10); ("rb_tim1", flt 10 1)] = Ok p /\
   dget p "rb_function" = Some (VFun [flt 5 10; flt 25 100] [flt 25 10; flt 10 1]).
Proof. eexists; split; vm_compute; reflexivity. Qed.

Lemma c50 env init hist p k q : opt_wf init -> Forall opt_wf hist -> opt_wf p ->
  In (k, q) [("SO2", "qdirso2"); ("BC", "qbc"); ("OC", "qoc")] ->
  let dflt := match dget handler_required q with Some x => x | None => VNone end in
  let reg := existsb (String.prefix (k ++ "_")%string) (env_gases env) in
  dget (handler_init env init) q = Some (if reg then flt 0 1 else num_or init q dflt) /\
  exists d, handler_reruns env (handler_init env init) (hist ++ [p]) = Ok d /\
    dget d q = Some (if reg then flt 0 1 else num_or p q dflt).
Proof.
  intros Hi Hf Hp Hin dflt reg. split; [exact (regional_init env init k q Hi Hin)|].
  assert (Hf' : Forall opt_wf (hist ++ [p])) by (apply Forall_app; split; [exact Hf | constructor; [exact Hp | constructor]]).
  destruct (reruns_total env init (hist ++ [p]) Hi Hf') as [d Hd]. exists d; split; [exact Hd|].
  exact (regional_after env init hist p d k q Hi Hf Hp Hd Hin).
Qed.

Lemma c75 p : (forall k v, In (k, v) p -> v <> VStr "missing") /\ take_out_missing p = Ok p \/
  (exists k, In (k, VStr "missing") p) /\ take_out_missing p = Err RuntimeError.
Proof.
  rewrite take_out_missing_eq. destruct (existsb _ p) eqn:E; [right|left]; split; try reflexivity.
  - apply existsb_exists in E. destruct E as [[k v] [Hin Hv]]. exists k. cbn [snd] in Hv.
    destruct v; simpl in Hv; try discriminate. apply String.eqb_eq in Hv; subst; exact Hin.
  - intros k v Hin ->. assert (T : existsb (fun kv => py_eqb (snd kv) (VStr "missing")) p = true); [|congruence].
    apply existsb_exists. exists (k, VStr "missing"); split; [exact Hin | reflexivity].
Qed.
