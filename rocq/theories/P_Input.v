(** * P_Input: proofs about input selection (C55) *)
From Verif Require Import PyBase PyBaseFacts Num M_Utils M_Gas M_Input Spec_Input P_Pams.
From Verif Require Spec_Pams.

(** compute comparisons of closed strings *)
Ltac eqbs := repeat match goal with
  | |- context [String.eqb ?a ?b] => let v := eval vm_compute in (String.eqb a b) in
       match v with true => change (String.eqb a b) with true | false => change (String.eqb a b) with false end
  end; cbv iota beta.
Ltac gets := rewrite ?dget_dset; eqbs.

Lemma required_wf : wf required_keys. Proof. now apply wf_lit. Qed.
Lemma used_wf : wf used_keys. Proof. now apply wf_lit. Qed.

Lemma dget_map_CV {A} (d : dict pyval) k : dget (map (fun kv => (fst kv, @CV A (snd kv))) d) k = option_map CV (dget d k).
Proof. induction d as [|[a v] d IH]; cbn; [reflexivity|]. destruct (String.eqb a k); [reflexivity | exact IH]. Qed.
Lemma dmem_smem {V} (d : dict V) k : dmem d k = smem k (dkeys d).
Proof.
  unfold dmem, smem. induction d as [|[a v] d IH]; [reflexivity|]. cbn. rewrite (eqb_sym_s k a).
  destruct (String.eqb a k); [reflexivity | exact IH].
Qed.
Lemma smem_incl k l l' : forallb (fun x => smem x l') l = true -> smem k l = true -> smem k l' = true.
Proof. rewrite forallb_forall. intros F I. apply F. now apply smem_In. Qed.

Definition all_keys : list string :=
  ["sunvolc"; "conc_run"; "idtm"; "nystart"; "nyend"; "emstart"; "carbon_cycle_model"; "thermal_model";
   "forc_file"; "forc_data"; "gaspam_file"; "gaspam_data"; "nat_ch4_file"; "nat_ch4_data"; "nat_n2o_file"; "nat_n2o_data";
   "concentrations_file"; "concentrations_data"; "emissions_file"; "emissions_data"; "perturb_em_file"; "perturb_em_data";
   "perturb_forc_file"; "perturb_forc_data"; "rf_luc_file"; "rf_luc_data"; "rf_sun_file"; "rf_sun_data";
   "rf_volc_n_file"; "rf_volc_n_data"; "rf_volc_s_file"; "rf_volc_s_data"].
Lemma known_smem k : known_key k = smem k all_keys.
Proof. unfold known_key, all_keys, smem. cbn [existsb append]. rewrite <- ?Bool.orb_assoc. cbn [orb]. reflexivity. Qed.
Lemma known_used k : dmem (dupdate used_keys required_keys) k = known_key k.
Proof.
  rewrite known_smem, dmem_smem.
  destruct (smem k all_keys) eqn:E.
  - apply (smem_incl k all_keys); [vm_compute; reflexivity | exact E].
  - destruct (smem k (dkeys (dupdate used_keys required_keys))) eqn:E2; [|reflexivity].
    rewrite <- E. symmetry. apply (smem_incl k (dkeys (dupdate used_keys required_keys))); [vm_compute; reflexivity | exact E2].
Qed.

(** only the known keys matter *)
Lemma cut_known cfg : wf cfg ->
  cut_and_check_pamset required_keys (filter (fun kv => known_key (fst kv)) cfg) used_keys = cut_and_check_pamset required_keys cfg used_keys.
Proof.
  intros W. unfold cut_and_check_pamset. change (match used_keys with [] => required_keys | _ => dupdate used_keys required_keys end) with (dupdate used_keys required_keys).
  f_equal. rewrite !cut_filter by (try apply wf_filter; exact W).
  assert (forall l : dict pyval, filter (fun kv => dmem (dupdate used_keys required_keys) (fst kv)) l = filter (fun kv => known_key (fst kv)) l) as E.
  { intros l. apply filter_ext. intros kv. apply known_used. }
  rewrite !E. clear. induction cfg as [|kv cfg IH]; [reflexivity|]. cbn. destruct (known_key (fst kv)) eqn:K; [cbn; rewrite K; now f_equal | exact IH].
Qed.

Section Init.
Context {A : Type}.
Lemma init_get cfg k : wf cfg ->
  dget (@initial_cfg A cfg) k = option_map CV
    (match dget required_keys k with
     | Some d => Some (match dget cfg k with Some v => if is_num v then v else d | None => d end)
     | None => if dmem used_keys k then dget cfg k else None
     end).
Proof. intros W. unfold initial_cfg. rewrite dget_map_CV, (cut_and_check_get _ _ _ _ required_wf W).
  unfold Spec_Pams.spec_completed. destruct (dget required_keys k), (dget cfg k), (dmem used_keys k); reflexivity. Qed.
Lemma init_used cfg k : wf cfg -> dget required_keys k = None -> dmem used_keys k = true ->
  dget (@initial_cfg A cfg) k = option_map CV (dget cfg k).
Proof. intros W R U. now rewrite init_get, R, U. Qed.
Lemma init_not cfg k : wf cfg -> known_key k = false -> dget (@initial_cfg A cfg) k = None.
Proof.
  intros W K. rewrite init_get by exact W. rewrite <- known_used in K. unfold dmem in K. rewrite dget_dupdate in K by exact required_wf.
  destruct (dget required_keys k); [discriminate|]. unfold dmem. destruct (dget used_keys k); [discriminate | reflexivity].
Qed.
Lemma init_start cfg : wf cfg -> dget (@initial_cfg A cfg) "nystart" = Some (CV (number cfg "nystart" 1750)).
Proof. intros W. rewrite init_get by exact W. unfold number. cbn. destruct (dget cfg "nystart") as [v|]; [destruct (is_num v)|]; reflexivity. Qed.
Lemma init_stop cfg : wf cfg -> dget (@initial_cfg A cfg) "nyend" = Some (CV (number cfg "nyend" 2100)).
Proof. intros W. rewrite init_get by exact W. unfold number. cbn. destruct (dget cfg "nyend") as [v|]; [destruct (is_num v)|]; reflexivity. Qed.
End Init.

(** ** existence of files *)
Section Files.
Context {A : Type} (exists_ : cval A -> bool) (cwd : string).
Definition redirected (k : string) (v v' : cval A) : Prop :=
  if is_file_key k && negb (exists_ v)
  then (k = "nat_ch4_file" /\ v' = nat_path cwd "ch4") \/ (k = "nat_n2o_file" /\ v' = nat_path cwd "n2o")
  else v' = v.
Lemma check_files_get h h' : check_inputfiles exists_ cwd h = Ok h' -> forall k,
  match dget h k with
  | None => dget h' k = None
  | Some v => exists v', dget h' k = Some v' /\ redirected k v v'
  end.
Proof.
  revert h'. induction h as [|[k0 v0] h IH]; intros h' E k; cbn in *; [injection E as <-; reflexivity|].
  destruct (if is_file_key k0 && negb (exists_ v0) then _ else _) as [v'|e] eqn:V; [|discriminate]. cbn in E.
  destruct (check_inputfiles exists_ cwd h) as [r'|]; [|discriminate]. cbn in E. injection E as <-. cbn [dget].
  destruct (String.eqb_spec k0 k) as [->|NE]; [|exact (IH r' eq_refl k)].
  exists v'. split; [reflexivity|]. unfold redirected. destruct (is_file_key k && negb (exists_ v0)); [|injection V as <-; reflexivity].
  destruct (String.eqb_spec k "nat_ch4_file"); [left; split; [assumption|]; now injection V as <-|].
  destruct (String.eqb_spec k "nat_n2o_file"); [right; split; [assumption|]; now injection V as <-|]. discriminate.
Qed.
(** C58: only a missing file other than natural emissions stops the construction here *)
Lemma check_files_ok h : check_inputfiles exists_ cwd h = Err FileNotFoundError /\
    (exists k v, In (k, v) h /\ is_file_key k = true /\ exists_ v = false /\ k <> "nat_ch4_file" /\ k <> "nat_n2o_file") \/
  (exists h', check_inputfiles exists_ cwd h = Ok h' /\
    forall k v, In (k, v) h -> is_file_key k = true -> k <> "nat_ch4_file" -> k <> "nat_n2o_file" -> exists_ v = true).
Proof.
  induction h as [|[k0 v0] h IH]; [right; exists []; split; [reflexivity | intros ? ? []]|]. cbn [check_inputfiles].
  destruct (is_file_key k0 && negb (exists_ v0)) eqn:C.
  - apply andb_prop in C as [C1 C2]. apply Bool.negb_true_iff in C2.
    destruct (String.eqb_spec k0 "nat_ch4_file") as [->|N1]; [|destruct (String.eqb_spec k0 "nat_n2o_file") as [->|N2]].
    1,2: cbn [rbind]; destruct IH as [[E X]|(h' & E & X)]; [left; rewrite E; split; [reflexivity|]; destruct X as (k & v & I & X); exists k, v; split; [now right | exact X] |
         right; rewrite E; eexists; split; [reflexivity|]; intros k v [I|I] F Z1 Z2; [injection I as <- <-; contradiction | now apply (X k v)]].
    left. cbn [rbind]. split; [reflexivity|]. exists k0, v0. split; [now left|]. repeat split; assumption.
  - cbn [rbind]. destruct IH as [[E X]|(h' & E & X)].
    + left. rewrite E. split; [reflexivity|]. destruct X as (k & v & I & X). exists k, v. split; [now right | exact X].
    + right. rewrite E. eexists. split; [reflexivity|]. intros k v [I|I] F Z1 Z2; [|now apply (X k v)].
      injection I as <- <-. rewrite F in C. destruct (exists_ v0); [reflexivity | discriminate].
Qed.
End Files.

Section Selection.
Context {A : Type} (exists_ : cval A -> bool) (gas_table : datum A -> result (dict (gasrow A)))
  (header : cval A -> result (dict string)) (default_data_dir cwd : string).
Variable cfg : dict pyval.
Hypothesis W : wf cfg.
Let h0 : hcfg A := initial_cfg cfg.
Let lu (k : string) : option (cval A) := option_map CV (dget cfg k).

Lemma h0_used k : dget required_keys k = None -> dmem used_keys k = true -> dget h0 k = lu k.
Proof. apply init_used; exact W. Qed.
Lemma h0_mem k : dget required_keys k = None -> dmem used_keys k = true -> dmem h0 k = dmem cfg k.
Proof. intros R U. unfold dmem. rewrite h0_used by assumption. unfold lu. now destruct (dget cfg k). Qed.
Lemma h0_given what : dget required_keys (what ++ "_file") = None -> dmem used_keys (what ++ "_file") = true ->
  dget required_keys (what ++ "_data") = None -> dmem used_keys (what ++ "_data") = true ->
  dmem h0 (what ++ "_file") || dmem h0 (what ++ "_data") = given cfg what.
Proof. intros. unfold given. now rewrite !h0_mem by assumption. Qed.

Definition with_defaults (years : list Z) (k : string) : option (cval A) :=
  if String.eqb k "rf_luc_file" && negb (given cfg "rf_luc") then Some (default_of default_data_dir "IPCC_LUCalbedo.txt")
  else if sunvolc_on cfg then
    if String.eqb k "rf_sun_file" && negb (given cfg "rf_sun") then Some (default_of default_data_dir "solar_IPCC.txt")
    else if (String.eqb k "rf_volc_n_file" || String.eqb k "rf_volc_s_file") && negb (given cfg "rf_volc_n") && negb (given cfg "rf_volc_s")
    then Some (default_of default_data_dir "meanVOLCmnd_ipcc_NH.txt") else dget h0 k
  else if String.eqb k "rf_sun_data" then Some (CZeros years 1)
  else if String.eqb k "rf_volc_n_data" || String.eqb k "rf_volc_s_data" then Some (CZeros years 12)
  else dget h0 k.

Ltac seq := repeat match goal with
  | |- context [String.eqb ?a ?b] => first [constr_eq a b; fail 1 | destruct (String.eqb_spec a b); [subst; eqbs|]]
  end.

Lemma defaults_get h1 : set_sun_volc_luc_defaults default_data_dir h0 = Ok h1 ->
  exists years, (sunvolc_on cfg = false -> run_years_of cfg years) /\ forall k, dget h1 k = with_defaults years k.
Proof.
  unfold set_sun_volc_luc_defaults. cbv zeta.
  rewrite !h0_mem by reflexivity.
  set (h0' := if negb (dmem cfg "rf_luc_file") && negb (dmem cfg "rf_luc_data") then dset h0 "rf_luc_file" (path default_data_dir "IPCC_LUCalbedo.txt") else h0).
  assert (forall k, dget h0' k = if String.eqb k "rf_luc_file" && negb (given cfg "rf_luc") then Some (default_of default_data_dir "IPCC_LUCalbedo.txt") else dget h0 k) as G0.
  { intros k. unfold h0'. rewrite <- Bool.negb_orb. change (dmem cfg "rf_luc_file" || dmem cfg "rf_luc_data") with (given cfg "rf_luc"). rewrite Bool.andb_comm. destruct (negb (given cfg "rf_luc")); cbn [andb]; [|reflexivity].
    rewrite dget_dset, eqb_sym_s. destruct (String.eqb k "rf_luc_file"); reflexivity. }
  assert (match dget h0' "sunvolc" with Some (CV v) => py_eqb v (VInt 1) | _ => false end = sunvolc_on cfg) as SV.
  { rewrite G0. eqbs. cbn [andb]. rewrite h0_used by reflexivity. unfold lu, sunvolc_on. destruct (dget cfg "sunvolc"); reflexivity. }
  assert (forall k, k <> "rf_luc_file" -> dget h0' k = dget h0 k) as G1.
  { intros k NE. rewrite G0. apply String.eqb_neq in NE. now rewrite NE. }
  assert (forall k, k <> "rf_luc_file" -> dmem h0' k = dmem h0 k) as G2 by (intros k NE; unfold dmem; now rewrite G1).
  rewrite SV. destruct (sunvolc_on cfg) eqn:ON.
  - rewrite !G2, !h0_mem by (discriminate || reflexivity).
    set (h1' := if negb (dmem cfg "rf_sun_file") && negb (dmem cfg "rf_sun_data") then dset h0' "rf_sun_file" (path default_data_dir "solar_IPCC.txt") else h0').
    assert (forall k, dget h1' k = if String.eqb k "rf_sun_file" && negb (given cfg "rf_sun") then Some (default_of default_data_dir "solar_IPCC.txt") else dget h0' k) as G3.
    { intros k. unfold h1'. rewrite <- Bool.negb_orb. change (dmem cfg "rf_sun_file" || dmem cfg "rf_sun_data") with (given cfg "rf_sun"). rewrite Bool.andb_comm. destruct (negb (given cfg "rf_sun")); cbn [andb]; [|reflexivity].
      rewrite dget_dset, eqb_sym_s. destruct (String.eqb k "rf_sun_file"); reflexivity. }
    assert (forall k, k <> "rf_luc_file" -> k <> "rf_sun_file" -> dget h1' k = dget h0 k) as G4.
    { intros k N1 N2. rewrite G3, <- (G1 k N1). apply String.eqb_neq in N2. now rewrite N2. }
    assert (forall k, k <> "rf_luc_file" -> k <> "rf_sun_file" -> dmem h1' k = dmem h0 k) as G5 by (intros k N1 N2; unfold dmem; now rewrite G4).
    cbn [existsb]. rewrite !G5, !G4 by discriminate.
    assert (dget h0 "rf_volc_file" = None) as V1 by (apply init_not; [exact W | reflexivity]).
    assert (dget h0 "rf_volc_data" = None) as V2 by (apply init_not; [exact W | reflexivity]).
    rewrite (proj2 (dmem_false h0 "rf_volc_file") V1), (proj2 (dmem_false h0 "rf_volc_data") V2), V1, V2. cbn [orb].
    rewrite !h0_mem by reflexivity.
    replace (negb (dmem cfg "rf_volc_n_file" || (dmem cfg "rf_volc_s_file" || (dmem cfg "rf_volc_n_data" || (dmem cfg "rf_volc_s_data" || false)))))
      with (negb (given cfg "rf_volc_n") && negb (given cfg "rf_volc_s")).
    2: { unfold given. cbn [append]. destruct (dmem cfg "rf_volc_n_file"), (dmem cfg "rf_volc_s_file"), (dmem cfg "rf_volc_n_data"), (dmem cfg "rf_volc_s_data"); reflexivity. }
    intros E. injection E as <-. exists []. split; [discriminate|]. intros k. unfold with_defaults. rewrite ON.
    assert (dget h1' k = if String.eqb k "rf_luc_file" && negb (given cfg "rf_luc") then Some (default_of default_data_dir "IPCC_LUCalbedo.txt")
      else if String.eqb k "rf_sun_file" && negb (given cfg "rf_sun") then Some (default_of default_data_dir "solar_IPCC.txt") else dget h0 k) as G6.
    { rewrite G3, G0. destruct (String.eqb_spec k "rf_sun_file") as [->|]; [|destruct (String.eqb k "rf_luc_file" && negb (given cfg "rf_luc")); reflexivity].
      eqbs. cbn [andb]. destruct (negb (given cfg "rf_sun")); reflexivity. }
    destruct (negb (given cfg "rf_volc_n") && negb (given cfg "rf_volc_s")) eqn:NV.
    + rewrite !dget_dset. rewrite (eqb_sym_s _ k), (eqb_sym_s _ k).
      rewrite <- Bool.andb_assoc, NV, Bool.andb_true_r, G6.
      destruct (String.eqb_spec k "rf_volc_s_file") as [->|]; [eqbs; cbn [andb orb]; reflexivity|].
      destruct (String.eqb_spec k "rf_volc_n_file") as [->|]; [eqbs; cbn [andb orb]; reflexivity|]. reflexivity.
    + rewrite <- Bool.andb_assoc, NV, Bool.andb_false_r. exact G6.
  - unfold start_of, stop_of. rewrite !G1 by discriminate. unfold h0 at 1 2. rewrite init_start, init_stop by exact W. cbn [cv].
    destruct (int_of (number cfg "nystart" 1750)) as [a|] eqn:IA; [|discriminate]. cbn [rbind].
    destruct (int_of (number cfg "nyend" 2100)) as [b|] eqn:IB; [|discriminate]. cbn [rbind].
    intros E. injection E as <-. exists (zrange a (year_count a b)). split; [intros _; exists a, b; repeat split; assumption|].
    intros k. unfold with_defaults. rewrite ON, !dget_dset, G0, !(eqb_sym_s _ k).
    destruct (String.eqb_spec k "rf_sun_data") as [->|]; [eqbs; reflexivity|].
    destruct (String.eqb_spec k "rf_volc_s_data") as [->|]; [eqbs; cbn [andb orb]; reflexivity|].
    destruct (String.eqb_spec k "rf_volc_n_data") as [->|]; [eqbs; cbn [andb orb]; reflexivity|]. cbn [orb]. reflexivity.
Qed.

Lemma fill_cases h nat C h' : fill_natural gas_table h nat C = Ok h' ->
  (optional_pam h nat = true \/ optional_pam h "gaspam" = false) /\ h' = h \/
  optional_pam h nat = false /\ optional_pam h "gaspam" = true /\
  exists d g r a b, get_data h "gaspam" = Ok d /\ gas_table d = Ok g /\ dget g C = Some r /\
    int_of (start_of h) = Ok a /\ int_of (stop_of h) = Ok b /\
    h' = dset h (nat ++ "_data") (CFlat (zrange a (year_count a b)) C (nat_em r)).
Proof.
  unfold fill_natural. destruct (optional_pam h nat); [intros E; injection E as <-; left; split; [now left | reflexivity]|].
  destruct (optional_pam h "gaspam"); cbn [negb andb]; [|intros E; injection E as <-; left; split; [now right | reflexivity]].
  unfold get_flat_natural_emissions. destruct (get_data h "gaspam") as [d|]; [|discriminate]. cbn [rbind].
  destruct (gas_table d) as [g|] eqn:G; [|discriminate]. cbn [rbind]. destruct (dget g C) as [r|] eqn:R; [|discriminate]. cbn [key rbind].
  destruct (int_of (start_of h)) as [a|]; [|discriminate]. cbn [rbind]. destruct (int_of (stop_of h)) as [b|]; [|discriminate]. cbn [rbind].
  intros E. injection E as <-. right. split; [reflexivity|]. split; [reflexivity|]. exists d, g, r, a, b. repeat split; assumption.
Qed.

Section Built.
Variable h4 : hcfg A.
Hypothesis OK : input_init exists_ gas_table header default_data_dir cwd cfg = Ok h4.

(** the chain of configurations *)
Lemma chain : exists h1 h2 h3 years,
  set_sun_volc_luc_defaults default_data_dir h0 = Ok h1 /\ (sunvolc_on cfg = false -> run_years_of cfg years) /\
  (forall k, dget h1 k = with_defaults years k) /\
  fill_natural gas_table h1 "nat_ch4" "CH4" = Ok h2 /\ fill_natural gas_table h2 "nat_n2o" "N2O" = Ok h3 /\
  check_inputfiles exists_ cwd h3 = Ok h4.
Proof.
  unfold input_init in OK. fold h0 in OK.
  destruct (set_sun_volc_luc_defaults default_data_dir h0) as [h1|] eqn:E1; [|discriminate]. cbn [rbind] in OK.
  destruct (fill_natural gas_table h1 "nat_ch4" "CH4") as [h2|] eqn:E2; [|discriminate]. cbn [rbind] in OK.
  destruct (fill_natural gas_table h2 "nat_n2o" "N2O") as [h3|] eqn:E3; [|discriminate]. cbn [rbind] in OK.
  destruct (check_inputfiles exists_ cwd h3) as [h4'|] eqn:E4; [|discriminate]. cbn [rbind] in OK.
  destruct (check_gaspam gas_table header h4'); [|discriminate]. cbn [rbind] in OK. injection OK as ->.
  destruct (defaults_get h1 E1) as (years & Y & G). exists h1, h2, h3, years. repeat split; assumption.
Qed.

Definition flat_for (c C : string) (o : option (cval A)) : Prop :=
  if given cfg c then o = lu (c ++ "_data")
  else if given cfg "gaspam" then exists d g r years, source exists_ gas_table default_data_dir cwd cfg "gaspam" MComponents d /\
         gas_table d = Ok g /\ dget g C = Some r /\ run_years_of cfg years /\ o = Some (CFlat years C (nat_em r))
  else o = None.

Lemma opt_given (h : hcfg A) what : dget h (what ++ "_file") = lu (what ++ "_file") -> dget h (what ++ "_data") = lu (what ++ "_data") ->
  optional_pam h what = given cfg what.
Proof. intros F D. unfold optional_pam, given, dmem. rewrite F, D. unfold lu. destruct (dget cfg (what ++ "_file")), (dget cfg (what ++ "_data")); reflexivity. Qed.
Lemma given_file what v : dget cfg (what ++ "_file") = Some v -> given cfg what = true.
Proof. intros E. unfold given, dmem. now rewrite E. Qed.
Lemma not_given what : given cfg what = false <-> dget cfg (what ++ "_file") = None /\ dget cfg (what ++ "_data") = None.
Proof.
  unfold given, dmem. destruct (dget cfg (what ++ "_file")), (dget cfg (what ++ "_data")); cbn; split; intros X; try discriminate; try (destruct X; discriminate); auto.
Qed.

(** the configuration before the files are checked *)
Lemma before_check : exists h3 years, check_inputfiles exists_ cwd h3 = Ok h4 /\ (sunvolc_on cfg = false -> run_years_of cfg years) /\
  flat_for "nat_ch4" "CH4" (dget h3 "nat_ch4_data") /\ flat_for "nat_n2o" "N2O" (dget h3 "nat_n2o_data") /\
  forall k, k <> "nat_ch4_data" -> k <> "nat_n2o_data" -> dget h3 k = with_defaults years k.
Proof.
  destruct chain as (h1 & h2 & h3 & years & E1 & Y & G & E2 & E3 & E4). exists h3, years.
  assert (forall k, smem k ["gaspam_file"; "gaspam_data"; "nat_ch4_file"; "nat_ch4_data"; "nat_n2o_file"; "nat_n2o_data"] = true -> dget h1 k = lu k) as P1.
  { intros k I. rewrite G. apply smem_In in I. repeat (destruct I as [<-|I]; [unfold with_defaults; eqbs; cbn [andb orb]; rewrite h0_used by reflexivity; destruct (sunvolc_on cfg); reflexivity|]). destruct I. }
  assert (start_of h1 = number cfg "nystart" 1750) as S1.
  { unfold start_of. rewrite G. unfold with_defaults. eqbs. cbn [andb orb]. unfold h0. rewrite init_start by exact W. destruct (sunvolc_on cfg); reflexivity. }
  assert (stop_of h1 = number cfg "nyend" 2100) as S2.
  { unfold stop_of. rewrite G. unfold with_defaults. eqbs. cbn [andb orb]. unfold h0. rewrite init_stop by exact W. destruct (sunvolc_on cfg); reflexivity. }
  assert (forall k, k <> "nat_ch4_data" -> dget h2 k = dget h1 k) as P2.
  { intros k NE. destruct (fill_cases _ _ _ _ E2) as [[_ ->]|(_ & _ & d & g & r & a & b & _ & _ & _ & _ & _ & ->)]; [reflexivity|]. apply dget_dset_neq. now intros <-. }
  assert (forall k, k <> "nat_n2o_data" -> dget h3 k = dget h2 k) as P3.
  { intros k NE. destruct (fill_cases _ _ _ _ E3) as [[_ ->]|(_ & _ & d & g & r & a & b & _ & _ & _ & _ & _ & ->)]; [reflexivity|]. apply dget_dset_neq. now intros <-. }
  assert (forall h d, (forall k, smem k ["gaspam_file"; "gaspam_data"; "nystart"; "nyend"] = true -> dget h k = dget h1 k) -> get_data h "gaspam" = Ok d -> source exists_ gas_table default_data_dir cwd cfg "gaspam" MComponents d) as SG.
  { intros h d EQ GD. unfold get_data in GD. cbn [append] in GD. rewrite !EQ, !P1 in GD by reflexivity. unfold lu in GD.
    change (dget (read_methods (start_of h) (stop_of h)) "gaspam") with (Some MComponents) in GD.
    destruct (dget cfg "gaspam_file") as [p|] eqn:F; cbn [option_map] in GD.
    - injection GD as <-. apply (S_file _ _ _ _ cfg "gaspam" MComponents p (CV p) F). unfold file_read.
      destruct (exists_ (CV p)) eqn:EX; [reflexivity|]. exfalso.
      destruct (check_files_ok exists_ cwd h3) as [[E _]|(h' & _ & X)]; [rewrite E in E4; discriminate|].
      assert (dget h3 "gaspam_file" = Some (CV p)) as D by (rewrite P3, P2, P1 by (discriminate || reflexivity); unfold lu; now rewrite F).
      rewrite (X "gaspam_file" (CV p)) in EX; [discriminate | now apply dget_Some_In | reflexivity | discriminate | discriminate].
    - destruct (dget cfg "gaspam_data") as [v|] eqn:D; cbn [option_map] in GD; [|discriminate]. injection GD as <-. now apply S_data. }
  split; [exact E4|]. split; [exact Y|]. split; [|split].
  - unfold flat_for. rewrite P3 by discriminate. destruct (fill_cases _ _ _ _ E2) as [[O ->]|(O1 & O2 & d & g & r & a & b & GD & GT & GR & IA & IB & ->)].
    + rewrite (opt_given h1 "nat_ch4"), (opt_given h1 "gaspam") in O by (apply P1; reflexivity). rewrite P1 by reflexivity.
      destruct (given cfg "nat_ch4") eqn:GV; [reflexivity|]. destruct O as [O|O]; [discriminate|]. rewrite O. apply not_given in GV as [_ GV]. unfold lu. cbn [append] in GV. now rewrite GV.
    + rewrite (opt_given h1 "nat_ch4") in O1 by (apply P1; reflexivity). rewrite (opt_given h1 "gaspam") in O2 by (apply P1; reflexivity). rewrite O1, O2.
      exists d, g, r, (zrange a (year_count a b)). split; [now apply (SG h1)|]. split; [exact GT|]. split; [exact GR|]. split; [exists a, b; rewrite <- S1, <- S2; repeat split; assumption|].
      apply dget_dset_eq.
  - unfold flat_for. destruct (fill_cases _ _ _ _ E3) as [[O ->]|(O1 & O2 & d & g & r & a & b & GD & GT & GR & IA & IB & ->)].
    + rewrite (opt_given h2 "nat_n2o"), (opt_given h2 "gaspam") in O by (rewrite P2 by discriminate; apply P1; reflexivity). rewrite P2 by discriminate. rewrite P1 by reflexivity.
      destruct (given cfg "nat_n2o") eqn:GV; [reflexivity|]. destruct O as [O|O]; [discriminate|]. rewrite O. apply not_given in GV as [_ GV]. unfold lu. cbn [append] in GV. now rewrite GV.
    + rewrite (opt_given h2 "nat_n2o") in O1 by (rewrite P2 by discriminate; apply P1; reflexivity). rewrite (opt_given h2 "gaspam") in O2 by (rewrite P2 by discriminate; apply P1; reflexivity). rewrite O1, O2.
      exists d, g, r, (zrange a (year_count a b)). split; [apply (SG h2); [|exact GD]; intros k I; apply P2; intros ->; discriminate|]. split; [exact GT|]. split; [exact GR|].
      split; [|apply dget_dset_eq]. exists a, b. unfold start_of, stop_of in *. rewrite P2 in IA, IB by discriminate. rewrite <- S1, <- S2. repeat split; assumption.
  - intros k N1 N2. rewrite P3, P2 by assumption. apply G.
Qed.

Let SRC := source exists_ gas_table default_data_dir cwd cfg.
Lemma select : forall what m, dget (spec_methods cfg) what = Some m ->
  (exists d, get_data h4 what = Ok d /\ SRC what m d) \/ (get_data h4 what = Err (KeyError what) /\ no_source cfg what).
Proof.
  destruct before_check as (h3 & years & E4 & Y & NC & NN & G).
  assert (start_of h4 = number cfg "nystart" 1750) as S1.
  { pose proof (check_files_get exists_ cwd h3 h4 E4 "nystart") as X. rewrite G in X by discriminate. unfold with_defaults in X. revert X. eqbs. cbn [andb orb]. unfold h0. rewrite init_start by exact W.
    destruct (sunvolc_on cfg); intros (v' & X & R); unfold redirected in R; cbn [is_file_key andb] in R; change (is_file_key "nystart") with false in R; cbn [andb] in R; subst v'; unfold start_of; now rewrite X. }
  assert (stop_of h4 = number cfg "nyend" 2100) as S2.
  { pose proof (check_files_get exists_ cwd h3 h4 E4 "nyend") as X. rewrite G in X by discriminate. unfold with_defaults in X. revert X. eqbs. cbn [andb orb]. unfold h0. rewrite init_stop by exact W.
    destruct (sunvolc_on cfg); intros (v' & X & R); unfold redirected in R; change (is_file_key "nyend") with false in R; cbn [andb] in R; subst v'; unfold stop_of; now rewrite X. }
  assert (forall what m, dget (spec_methods cfg) what = Some m -> is_file_key (what ++ "_file") = true -> is_file_key (what ++ "_data") = false ->
    (exists v v', dget h3 (what ++ "_file") = Some v /\ redirected exists_ cwd (what ++ "_file") v v' /\ get_data h4 what = Ok (Read m v')) \/
    (dget h3 (what ++ "_file") = None /\ get_data h4 what = match dget h3 (what ++ "_data") with Some v => Ok (Given v) | None => Err (KeyError what) end)) as SEL.
  { intros what m M KF KD. unfold get_data. rewrite S1, S2. change (read_methods (number cfg "nystart" 1750) (number cfg "nyend" 2100)) with (spec_methods cfg). rewrite M.
    pose proof (check_files_get exists_ cwd h3 h4 E4 (what ++ "_file")) as XF. pose proof (check_files_get exists_ cwd h3 h4 E4 (what ++ "_data")) as XD.
    destruct (dget h3 (what ++ "_file")) as [v|].
    - left. destruct XF as (v' & X & R). exists v, v'. rewrite X. repeat split. exact R.
    - right. split; [reflexivity|]. rewrite XF. destruct (dget h3 (what ++ "_data")) as [v|]; [|now rewrite XD].
      destruct XD as (v' & X & R). unfold redirected in R. rewrite KD in R. cbn [andb] in R. subst v'. now rewrite X. }
  assert (forall what p v', is_file_key (what ++ "_file") = true -> redirected exists_ cwd (what ++ "_file") (CV p) v' ->
    ((what ++ "_file")%string = "nat_ch4_file" -> what = "nat_ch4") -> ((what ++ "_file")%string = "nat_n2o_file" -> what = "nat_n2o") -> file_read exists_ cwd what p v') as FR.
  { intros what p v' KF R C1 C2. unfold redirected in R. rewrite KF in R. cbn [andb] in R. unfold file_read. destruct (exists_ (CV p)); cbn [negb] in R; [exact R|].
    destruct R as [[E R]|[E R]]; [exists "ch4" | exists "n2o"]; (split; [auto | split; [cbn; tauto | exact R]]). }
  (* inputs without default *)
  assert (forall what m, dget (spec_methods cfg) what = Some m -> smem what ["forc"; "gaspam"; "concentrations"; "emissions"; "perturb_em"; "perturb_forc"] = true ->
    (exists d, get_data h4 what = Ok d /\ SRC what m d) \/ (get_data h4 what = Err (KeyError what) /\ no_source cfg what)) as PLAIN.
  { intros what m M I. apply smem_In in I.
    assert (dget h3 (what ++ "_file") = lu (what ++ "_file") /\ dget h3 (what ++ "_data") = lu (what ++ "_data") /\ is_file_key (what ++ "_file") = true /\ is_file_key (what ++ "_data") = false /\
      (what ++ "_file")%string <> "nat_ch4_file" /\ (what ++ "_file")%string <> "nat_n2o_file" /\ sun_volc what = false /\ ~ In what ["rf_luc"; "rf_sun"] /\ ~ In what ["rf_volc_n"; "rf_volc_s"] /\ ~ In what ["nat_ch4"; "nat_n2o"]) as (HF & HD & KF & KD & N1 & N2 & SV & I1 & I2 & I3).
    { clear M. repeat (destruct I as [<-|I]; [split; [rewrite G by discriminate; unfold with_defaults; cbn [append]; eqbs; cbn [andb orb]; rewrite h0_used by reflexivity; destruct (sunvolc_on cfg); reflexivity|];
        split; [rewrite G by discriminate; unfold with_defaults; cbn [append]; eqbs; cbn [andb orb]; rewrite h0_used by reflexivity; destruct (sunvolc_on cfg); reflexivity|];
        repeat split; try reflexivity; try discriminate; cbn; intros X; repeat (destruct X as [X|X]; [discriminate|]); destruct X|]). destruct I. }
    destruct (SEL what m M KF KD) as [(v & v' & F & R & E)|[F E]]; rewrite HF in F; unfold lu in F.
    - destruct (dget cfg (what ++ "_file")) as [p|] eqn:P; [|discriminate]. injection F as <-. left. exists (Read m v'). split; [exact E|].
      apply (S_file _ _ _ _ cfg what m p v' P). apply (FR what p v' KF R); intros X; contradiction.
    - destruct (dget cfg (what ++ "_file")) as [p|] eqn:P; [discriminate|]. rewrite HD in E. unfold lu in E. destruct (dget cfg (what ++ "_data")) as [v|] eqn:D; cbn [option_map] in E.
      + left. exists (Given (CV v)). split; [exact E|]. apply S_data; [exact P | exact D | now rewrite SV].
      + right. split; [exact E|]. split; [apply not_given; split; assumption|]. split; [exact I1|]. split; intros X; contradiction. }
  intros what m M. assert (In what (dkeys (spec_methods cfg))) as I by (apply dget_In_keys; unfold dmem; now rewrite M). cbn in I.
  repeat (destruct I as [<-|I]; [try (apply (PLAIN _ m M); reflexivity)|]); [..|destruct I].
  - (* nat_ch4 *)
    destruct (SEL "nat_ch4" m M eq_refl eq_refl) as [(v & v' & F & R & E)|[F E]]; rewrite G in F by discriminate; unfold with_defaults in F; revert F; cbn [append]; eqbs; cbn [andb orb]; rewrite h0_used by reflexivity; unfold lu.
    + intros F. assert (option_map CV (dget cfg "nat_ch4_file") = Some v) as F' by (destruct (sunvolc_on cfg); exact F). destruct (dget cfg "nat_ch4_file") as [p|] eqn:P; [|discriminate]. injection F' as <-.
      left. exists (Read m v'). split; [exact E|]. apply (S_file _ _ _ _ cfg "nat_ch4" m p v' P). now apply (FR "nat_ch4" p v').
    + intros F. assert (dget cfg "nat_ch4_file" = None) as P by (destruct (sunvolc_on cfg); destruct (dget cfg "nat_ch4_file"); (discriminate || reflexivity)).
      cbn [append] in E. unfold flat_for in NC. destruct (given cfg "nat_ch4") eqn:GV.
      * rewrite NC in E. unfold lu in E. cbn [append] in E. destruct (dget cfg "nat_ch4_data") as [v|] eqn:D; cbn [option_map] in E; [left; exists (Given (CV v)); split; [exact E|]; now apply S_data|].
        assert (given cfg "nat_ch4" = false) by (apply not_given; split; assumption). congruence.
      * destruct (given cfg "gaspam") eqn:GG.
        -- destruct NC as (d & g & r & yrs & S0 & T1 & T2 & T3 & T4). rewrite T4 in E. left. eexists. split; [exact E|].
           apply (S_natural _ _ _ _ cfg "nat_ch4" m "nat_ch4" "CH4" yrs d g r); (assumption || reflexivity || now left).
        -- rewrite NC in E. right. split; [exact E|]. split; [exact GV|]. split; [cbn; intros [X|[X|[]]]; discriminate|]. split; [cbn; intros [X|[X|[]]]; discriminate|]. intros _. exact GG.
  - (* nat_n2o *)
    destruct (SEL "nat_n2o" m M eq_refl eq_refl) as [(v & v' & F & R & E)|[F E]]; rewrite G in F by discriminate; unfold with_defaults in F; revert F; cbn [append]; eqbs; cbn [andb orb]; rewrite h0_used by reflexivity; unfold lu.
    + intros F. assert (option_map CV (dget cfg "nat_n2o_file") = Some v) as F' by (destruct (sunvolc_on cfg); exact F). destruct (dget cfg "nat_n2o_file") as [p|] eqn:P; [|discriminate]. injection F' as <-.
      left. exists (Read m v'). split; [exact E|]. apply (S_file _ _ _ _ cfg "nat_n2o" m p v' P). now apply (FR "nat_n2o" p v').
    + intros F. assert (dget cfg "nat_n2o_file" = None) as P by (destruct (sunvolc_on cfg); destruct (dget cfg "nat_n2o_file"); (discriminate || reflexivity)).
      cbn [append] in E. unfold flat_for in NN. destruct (given cfg "nat_n2o") eqn:GV.
      * rewrite NN in E. unfold lu in E. cbn [append] in E. destruct (dget cfg "nat_n2o_data") as [v|] eqn:D; cbn [option_map] in E; [left; exists (Given (CV v)); split; [exact E|]; now apply S_data|].
        assert (given cfg "nat_n2o" = false) by (apply not_given; split; assumption). congruence.
      * destruct (given cfg "gaspam") eqn:GG.
        -- destruct NN as (d & g & r & yrs & S0 & T1 & T2 & T3 & T4). rewrite T4 in E. left. eexists. split; [exact E|].
           apply (S_natural _ _ _ _ cfg "nat_n2o" m "nat_n2o" "N2O" yrs d g r); (assumption || reflexivity || now right).
        -- rewrite NN in E. right. split; [exact E|]. split; [exact GV|]. split; [cbn; intros [X|[X|[]]]; discriminate|]. split; [cbn; intros [X|[X|[]]]; discriminate|]. intros _. exact GG.
  - (* rf_luc *)
    assert (dget h3 "rf_luc_data" = lu "rf_luc_data") as D by (rewrite G by discriminate; unfold with_defaults; eqbs; cbn [andb orb]; rewrite h0_used by reflexivity; destruct (sunvolc_on cfg); reflexivity).
    assert (dget h3 "rf_luc_file" = if given cfg "rf_luc" then lu "rf_luc_file" else Some (default_of default_data_dir "IPCC_LUCalbedo.txt")) as F.
    { rewrite G by discriminate. unfold with_defaults. eqbs. cbn [andb orb]. rewrite h0_used by reflexivity. destruct (given cfg "rf_luc"), (sunvolc_on cfg); reflexivity. }
    destruct (SEL "rf_luc" m M eq_refl eq_refl) as [(v & v' & F' & R & E)|[F' E]]; cbn [append] in *; rewrite F in F'; destruct (given cfg "rf_luc") eqn:GV; unfold lu in *.
    + destruct (dget cfg "rf_luc_file") as [p|] eqn:P; [|discriminate]. injection F' as <-. left. exists (Read m v'). split; [exact E|]. apply (S_file _ _ _ _ cfg "rf_luc" m p v' P). now apply (FR "rf_luc" p v').
    + injection F' as <-. left. exists (Read m v'). split; [exact E|]. unfold redirected in R. change (is_file_key "rf_luc_file") with true in R. cbn [andb] in R.
      destruct (negb (exists_ (default_of default_data_dir "IPCC_LUCalbedo.txt"))); [destruct R as [[R _]|[R _]]; discriminate|]. subst v'. now apply S_luc.
    + destruct (dget cfg "rf_luc_file") as [p|] eqn:P; [discriminate|]. rewrite D in E. destruct (dget cfg "rf_luc_data") as [v|] eqn:DD; cbn [option_map] in E; [left; exists (Given (CV v)); split; [exact E|]; now apply S_data|].
      assert (given cfg "rf_luc" = false) by (apply not_given; split; assumption). congruence.
    + discriminate.
  - (* rf_sun *)
    assert (dget h3 "rf_sun_data" = if sunvolc_on cfg then lu "rf_sun_data" else Some (CZeros years 1)) as D by (rewrite G by discriminate; unfold with_defaults; eqbs; cbn [andb orb]; rewrite ?h0_used by reflexivity; destruct (sunvolc_on cfg); reflexivity).
    assert (dget h3 "rf_sun_file" = if given cfg "rf_sun" || negb (sunvolc_on cfg) then lu "rf_sun_file" else Some (default_of default_data_dir "solar_IPCC.txt")) as F.
    { rewrite G by discriminate. unfold with_defaults. eqbs. cbn [andb orb]. rewrite h0_used by reflexivity. destruct (given cfg "rf_sun"), (sunvolc_on cfg); reflexivity. }
    destruct (SEL "rf_sun" m M eq_refl eq_refl) as [(v & v' & F' & R & E)|[F' E]]; cbn [append] in *; rewrite F in F'; destruct (given cfg "rf_sun" || negb (sunvolc_on cfg)) eqn:GV; unfold lu in *.
    + destruct (dget cfg "rf_sun_file") as [p|] eqn:P; [|discriminate]. injection F' as <-. left. exists (Read m v'). split; [exact E|]. apply (S_file _ _ _ _ cfg "rf_sun" m p v' P). now apply (FR "rf_sun" p v').
    + injection F' as <-. left. exists (Read m v'). split; [exact E|]. unfold redirected in R. change (is_file_key "rf_sun_file") with true in R. cbn [andb] in R.
      destruct (negb (exists_ (default_of default_data_dir "solar_IPCC.txt"))); [destruct R as [[R _]|[R _]]; discriminate|]. subst v'. apply Bool.orb_false_iff in GV as [GV ON]. apply Bool.negb_false_iff in ON. now apply S_sun.
    + destruct (dget cfg "rf_sun_file") as [p|] eqn:P; [discriminate|]. rewrite D in E. destruct (sunvolc_on cfg) eqn:ON.
      * destruct (dget cfg "rf_sun_data") as [v|] eqn:DD; cbn [option_map] in E; [left; exists (Given (CV v)); split; [exact E|]; apply S_data; [assumption|assumption|now rewrite ON]|].
        rewrite Bool.orb_false_r in GV. assert (given cfg "rf_sun" = false) by (apply not_given; split; assumption). congruence.
      * left. eexists. split; [exact E|]. apply (S_zeros _ _ _ _ cfg "rf_sun" m years); auto.
    + discriminate.
  - (* rf_volc_n *)
    assert (dget h3 "rf_volc_n_data" = if sunvolc_on cfg then lu "rf_volc_n_data" else Some (CZeros years 12)) as D by (rewrite G by discriminate; unfold with_defaults; eqbs; cbn [andb orb]; rewrite ?h0_used by reflexivity; destruct (sunvolc_on cfg); reflexivity).
    assert (dget h3 "rf_volc_n_file" = if given cfg "rf_volc_n" || given cfg "rf_volc_s" || negb (sunvolc_on cfg) then lu "rf_volc_n_file" else Some (default_of default_data_dir "meanVOLCmnd_ipcc_NH.txt")) as F.
    { rewrite G by discriminate. unfold with_defaults. eqbs. cbn [andb orb]. rewrite h0_used by reflexivity. destruct (given cfg "rf_volc_n"), (given cfg "rf_volc_s"), (sunvolc_on cfg); reflexivity. }
    destruct (SEL "rf_volc_n" m M eq_refl eq_refl) as [(v & v' & F' & R & E)|[F' E]]; cbn [append] in *; rewrite F in F'; destruct (given cfg "rf_volc_n" || given cfg "rf_volc_s" || negb (sunvolc_on cfg)) eqn:GV; unfold lu in *.
    + destruct (dget cfg "rf_volc_n_file") as [p|] eqn:P; [|discriminate]. injection F' as <-. left. exists (Read m v'). split; [exact E|]. apply (S_file _ _ _ _ cfg "rf_volc_n" m p v' P). now apply (FR "rf_volc_n" p v').
    + injection F' as <-. left. exists (Read m v'). split; [exact E|]. unfold redirected in R. change (is_file_key "rf_volc_n_file") with true in R. cbn [andb] in R.
      destruct (negb (exists_ (default_of default_data_dir "meanVOLCmnd_ipcc_NH.txt"))); [destruct R as [[R _]|[R _]]; discriminate|]. subst v'.
      apply Bool.orb_false_iff in GV as [GV ON]. apply Bool.orb_false_iff in GV as [GN GS]. apply Bool.negb_false_iff in ON. apply S_volc; auto.
    + destruct (dget cfg "rf_volc_n_file") as [p|] eqn:P; [discriminate|]. rewrite D in E. destruct (sunvolc_on cfg) eqn:ON.
      * destruct (dget cfg "rf_volc_n_data") as [v|] eqn:DD; cbn [option_map] in E; [left; exists (Given (CV v)); split; [exact E|]; apply S_data; [assumption|assumption|now rewrite ON]|].
        right. split; [exact E|]. split; [apply not_given; split; assumption|]. split; [cbn; intros [X|[X|[]]]; discriminate|]. split; [|cbn; intros [X|[X|[]]]; discriminate].
        intros _. split; [exact ON|]. rewrite Bool.orb_false_r in GV. now apply Bool.orb_true_iff.
      * left. eexists. split; [exact E|]. apply (S_zeros _ _ _ _ cfg "rf_volc_n" m years); auto.
    + discriminate.
  - (* rf_volc_s *)
    assert (dget h3 "rf_volc_s_data" = if sunvolc_on cfg then lu "rf_volc_s_data" else Some (CZeros years 12)) as D by (rewrite G by discriminate; unfold with_defaults; eqbs; cbn [andb orb]; rewrite ?h0_used by reflexivity; destruct (sunvolc_on cfg); reflexivity).
    assert (dget h3 "rf_volc_s_file" = if given cfg "rf_volc_n" || given cfg "rf_volc_s" || negb (sunvolc_on cfg) then lu "rf_volc_s_file" else Some (default_of default_data_dir "meanVOLCmnd_ipcc_NH.txt")) as F.
    { rewrite G by discriminate. unfold with_defaults. eqbs. cbn [andb orb]. rewrite h0_used by reflexivity. destruct (given cfg "rf_volc_n"), (given cfg "rf_volc_s"), (sunvolc_on cfg); reflexivity. }
    destruct (SEL "rf_volc_s" m M eq_refl eq_refl) as [(v & v' & F' & R & E)|[F' E]]; cbn [append] in *; rewrite F in F'; destruct (given cfg "rf_volc_n" || given cfg "rf_volc_s" || negb (sunvolc_on cfg)) eqn:GV; unfold lu in *.
    + destruct (dget cfg "rf_volc_s_file") as [p|] eqn:P; [|discriminate]. injection F' as <-. left. exists (Read m v'). split; [exact E|]. apply (S_file _ _ _ _ cfg "rf_volc_s" m p v' P). now apply (FR "rf_volc_s" p v').
    + injection F' as <-. left. exists (Read m v'). split; [exact E|]. unfold redirected in R. change (is_file_key "rf_volc_s_file") with true in R. cbn [andb] in R.
      destruct (negb (exists_ (default_of default_data_dir "meanVOLCmnd_ipcc_NH.txt"))); [destruct R as [[R _]|[R _]]; discriminate|]. subst v'.
      apply Bool.orb_false_iff in GV as [GV ON]. apply Bool.orb_false_iff in GV as [GN GS]. apply Bool.negb_false_iff in ON. apply S_volc; auto.
    + destruct (dget cfg "rf_volc_s_file") as [p|] eqn:P; [discriminate|]. rewrite D in E. destruct (sunvolc_on cfg) eqn:ON.
      * destruct (dget cfg "rf_volc_s_data") as [v|] eqn:DD; cbn [option_map] in E; [left; exists (Given (CV v)); split; [exact E|]; apply S_data; [assumption|assumption|now rewrite ON]|].
        right. split; [exact E|]. split; [apply not_given; split; assumption|]. split; [cbn; intros [X|[X|[]]]; discriminate|]. split; [|cbn; intros [X|[X|[]]]; discriminate].
        intros _. split; [exact ON|]. rewrite Bool.orb_false_r in GV. now apply Bool.orb_true_iff.
      * left. eexists. split; [exact E|]. apply (S_zeros _ _ _ _ cfg "rf_volc_s" m years); auto.
    + discriminate.
Qed.

(** ** the sources are exclusive *)
Lemma years_unique a b : run_years_of cfg a -> run_years_of cfg b -> a = b.
Proof. intros (x & y & X1 & X2 & ->) (x' & y' & Y1 & Y2 & ->). rewrite X1 in Y1. rewrite X2 in Y2. injection Y1 as <-. injection Y2 as <-. reflexivity. Qed.
Lemma file_read_unique what p a b : file_read exists_ cwd what p a -> file_read exists_ cwd what p b -> a = b.
Proof.
  unfold file_read. destruct (exists_ (CV p)); [congruence|]. intros (c & W1 & I1 & ->) (c' & W2 & I2 & ->). rewrite W1 in W2. cbn in W2. injection W2 as <-. reflexivity.
Qed.
Definition kind (what : string) : nat :=
  if String.eqb what "rf_luc" then 4 else if String.eqb what "rf_sun" then 5
  else if String.eqb what "rf_volc_n" || String.eqb what "rf_volc_s" then 6
  else if String.eqb what "nat_ch4" || String.eqb what "nat_n2o" then 7 else 8.
Definition tag (what : string) : nat :=
  match dget cfg (what ++ "_file") with
  | Some _ => 1
  | None => if sun_volc what && negb (sunvolc_on cfg) then 2
            else match dget cfg (what ++ "_data") with Some _ => 3 | None => kind what end
  end.
Lemma source_tag what m d : SRC what m d ->
  match tag what with
  | 1 => exists p p', dget cfg (what ++ "_file") = Some p /\ file_read exists_ cwd what p p' /\ d = Read m p'
  | 2 => exists years, run_years_of cfg years /\ d = Given (CZeros years (if String.eqb what "rf_sun" then 1 else 12))
  | 3 => exists v, dget cfg (what ++ "_data") = Some v /\ d = Given (CV v)
  | 4 => d = Read m (default_of default_data_dir "IPCC_LUCalbedo.txt")
  | 5 => d = Read m (default_of default_data_dir "solar_IPCC.txt")
  | 6 => given cfg "rf_volc_n" = false /\ given cfg "rf_volc_s" = false /\ d = Read m (default_of default_data_dir "meanVOLCmnd_ipcc_NH.txt")
  | 7 => exists C years d0 g r, C = (if String.eqb what "nat_ch4" then "CH4" else "N2O") /\ SRC "gaspam" MComponents d0 /\
           gas_table d0 = Ok g /\ dget g C = Some r /\ run_years_of cfg years /\ d = Given (CFlat years C (nat_em r))
  | _ => False
  end.
Proof.
  intros S. destruct S as [p p' F R | years F SV ON Y | v F D SV | E GV | E GV ON | E G1 G2 ON | c C years d g r P E GV S GT GR Y]; unfold tag.
  - rewrite F. exists p, p'. auto.
  - rewrite F, SV, ON. exists years. auto.
  - rewrite F, SV, D. exists v. auto.
  - subst what. apply not_given in GV as [-> ->]. reflexivity.
  - subst what. apply not_given in GV as [-> ->]. rewrite ON. reflexivity.
  - destruct E as [->| ->]; [destruct (proj1 (not_given _) G1) as [-> ->] | destruct (proj1 (not_given _) G2) as [-> ->]]; rewrite ON; repeat split; assumption.
  - destruct P as [P|P]; injection P as -> ->; subst what; apply not_given in GV as [-> ->];
      [exists "CH4", years, d, g, r | exists "N2O", years, d, g, r]; repeat split; assumption.
Qed.
Lemma gaspam_unique d d' : SRC "gaspam" MComponents d -> SRC "gaspam" MComponents d' -> d = d'.
Proof.
  intros S S'. apply source_tag in S, S'. unfold tag in *. destruct (dget cfg ("gaspam" ++ "_file")) as [p0|].
  - destruct S as (p & p' & F & R & ->), S' as (q & q' & F' & R' & ->). injection F as <-. injection F' as <-. f_equal. exact (file_read_unique "gaspam" p0 p' q' R R').
  - change (sun_volc "gaspam") with false in *. cbn [andb] in *. destruct (dget cfg ("gaspam" ++ "_data")) as [v|].
    + destruct S as (a & F & ->), S' as (b & F' & ->). injection F as <-. now injection F' as <-.
    + destruct S.
Qed.
Lemma source_unique what m d d' : SRC what m d -> SRC what m d' -> d = d'.
Proof.
  intros S S'. apply source_tag in S, S'. destruct (tag what) as [|[|[|[|[|[|[|[|n]]]]]]]]; try contradiction; try congruence.
  - destruct S as (p & p' & F & R & ->), S' as (q & q' & F' & R' & ->). rewrite F in F'. injection F' as <-. f_equal. exact (file_read_unique what p p' q' R R').
  - destruct S as (y & Y & ->), S' as (y' & Y' & ->). now rewrite (years_unique y y').
  - destruct S as (v & D & ->), S' as (v' & D' & ->). rewrite D in D'. now injection D' as <-.
  - destruct S as (_ & _ & ->), S' as (_ & _ & ->). reflexivity.
  - destruct S as (C & y & d0 & g & r & EC & S & GT & GR & Y & ->), S' as (C' & y' & d0' & g' & r' & EC' & S' & GT' & GR' & Y' & ->).
    rewrite <- EC in EC'. subst C'. rewrite (gaspam_unique d0 d0' S S'), GT' in GT. injection GT as <-. rewrite GR in GR'. injection GR' as <-. now rewrite (years_unique y y').
Qed.
Lemma source_given what m d : SRC what m d -> ~ no_source cfg what.
Proof.
  intros S (G & I & V & NA). apply source_tag in S. apply not_given in G as [GF GD]. unfold tag in S. rewrite GF, GD in S.
  destruct (sun_volc what && negb (sunvolc_on cfg)) eqn:SV.
  - apply andb_prop in SV as [SV ON]. apply smem_In in SV. destruct SV as [<-|SV]; [apply I; now right; left|]. destruct (V SV) as [ON' _]. rewrite ON' in ON. discriminate.
  - unfold kind in S. destruct (String.eqb_spec what "rf_luc") as [->|]; [apply I; now left|]. destruct (String.eqb_spec what "rf_sun") as [->|]; [apply I; now right; left|].
    destruct (String.eqb what "rf_volc_n" || String.eqb what "rf_volc_s") eqn:VO.
    + assert (In what ["rf_volc_n"; "rf_volc_s"]) as IV by (apply Bool.orb_true_iff in VO as [E|E]; apply String.eqb_eq in E; subst; [now left | now right; left]).
      destruct (V IV) as [ON X]. destruct S as (G1 & G2 & _). rewrite G1, G2 in X. destruct X; discriminate.
    + destruct (String.eqb what "nat_ch4" || String.eqb what "nat_n2o") eqn:NO; [|exact S].
      assert (In what ["nat_ch4"; "nat_n2o"]) as IN by (apply Bool.orb_true_iff in NO as [E|E]; apply String.eqb_eq in E; subst; [now left | now right; left]).
      apply NA in IN. destruct S as (C & y & d0 & g & r & _ & S & _). apply source_tag in S. apply not_given in IN as [IF ID]. unfold tag in S. rewrite IF, ID in S. exact S.
Qed.
Lemma c55_sources what m : dget (spec_methods cfg) what = Some m ->
  (forall d, get_data h4 what = Ok d <-> SRC what m d) /\
  (forall e, get_data h4 what = Err e <-> e = KeyError what /\ no_source cfg what).
Proof.
  intros M. destruct (select what m M) as [(d & E & S)|[E S]]; rewrite E; split; intros x; split; intros X.
  - now injection X as <-.
  - f_equal. now apply (source_unique what m).
  - discriminate.
  - destruct X as [_ X]. now apply source_given in S.
  - discriminate.
  - now apply source_given in X.
  - injection X as <-. now split.
  - destruct X as [-> _]. reflexivity.
Qed.
End Built.
End Selection.
