From Verif Require Import PyBase PyBaseFacts Num M_Utils M_Flat M_Pams M_Gas M_Parallel Spec_Pams Spec_Parallel
  P_Pams P_Flat P_CarbonPams P_PamsDefaults P_PamsMain P_Parallel P_Parallel2.

Definition cfg_run (i : instance) (c : config) : result instance := instance_run i (cf_udm c) (cf_emiconc c) (cf_carbon c).
Fixpoint cfg_runs (i : instance) (cs : list config) {struct cs} : result instance :=
  match cs with [] => Ok i | c :: r => do i' <- cfg_run i c; cfg_runs i' r end.

Transparent driver_emiconc.
Lemma driver_emiconc_wf cfg : wf (driver_emiconc cfg).
Proof. apply (emi_fold_wf (driver_caller_cfg cfg)), base_wf. Qed.
Opaque handler_rerun handler_init carbon_reset check_pamset driver_emiconc driver_carbon.

Lemma cfg_run_rf i c i' : cfg_run i c = Ok i' -> in_rf_run i = true ->
  in_rf_run i' = true /\ in_env i' = in_env i /\ in_pams i' = in_pams i /\ in_carbon i' = in_carbon i /\ in_udm i' = cf_udm c.
Proof. unfold cfg_run, instance_run. intros H R. rewrite R in H. injection H as <-. auto. Qed.
Lemma cfg_run_emi i c i' : cfg_run i c = Ok i' -> in_rf_run i = false ->
  in_rf_run i' = false /\ in_env i' = in_env i /\ in_udm i' = cf_udm c /\
  handler_rerun (in_env i) (in_pams i) (cf_emiconc c) = Ok (in_pams i') /\
  carbon_reset (in_carbon i) (cf_carbon c) = Ok (in_carbon i').
Proof.
  unfold cfg_run, instance_run. intros H R. rewrite R in H.
  destruct (handler_rerun (in_env i) (in_pams i) (cf_emiconc c)) as [p|] eqn:E1; [|discriminate]. cbn [rbind] in H.
  destruct (carbon_reset (in_carbon i) (cf_carbon c)) as [k|] eqn:E2; [|discriminate]. cbn [rbind] in H.
  injection H as <-. auto.
Qed.

Lemma cfg_runs_rf cs : forall i i', cfg_runs i cs = Ok i' -> in_rf_run i = true ->
  in_rf_run i' = true /\ in_env i' = in_env i /\ in_pams i' = in_pams i /\ in_carbon i' = in_carbon i.
Proof.
  induction cs as [|c r IH]; intros i i' H R; cbn [cfg_runs] in H; [injection H as <-; auto|].
  destruct (cfg_run i c) as [i1|] eqn:E; [|discriminate]. cbn [rbind] in H.
  destruct (cfg_run_rf i c i1 E R) as (R1 & A & B & D & _). destruct (IH i1 i' H R1) as (P1 & P2 & P3 & P4).
  rewrite P2, P3, P4. auto.
Qed.
Lemma cfg_runs_emi cs : forall i i', cfg_runs i cs = Ok i' -> in_rf_run i = false ->
  in_rf_run i' = false /\ in_env i' = in_env i /\
  handler_reruns (in_env i) (in_pams i) (map cf_emiconc cs) = Ok (in_pams i') /\
  carbon_resets (in_carbon i) (map cf_carbon cs) = Ok (in_carbon i').
Proof.
  induction cs as [|c r IH]; intros i i' H R; cbn [cfg_runs] in H; [injection H as <-; auto|].
  destruct (cfg_run i c) as [i1|] eqn:E; [|discriminate]. cbn [rbind] in H.
  destruct (cfg_run_emi i c i1 E R) as (R1 & A & _ & B & D). destruct (IH i1 i' H R1) as (P1 & P2 & P3 & P4).
  rewrite A in *. split; [exact P1|]. split; [exact P2|]. cbn [map handler_reruns carbon_resets]. rewrite B, D. cbn [rbind]. auto.
Qed.
Lemma cfg_runs_snoc cs c : forall i, cfg_runs i (cs ++ [c]) = do i' <- cfg_runs i cs; cfg_run i' c.
Proof.
  induction cs as [|x r IH]; intros i; cbn [app cfg_runs].
  - cbn [rbind]. destruct (cfg_run i c); reflexivity.
  - destruct (cfg_run i x); cbn [rbind]; [apply IH | reflexivity].
Qed.

Lemma uniform_split {C} (f : C -> option pyval) l l' c : uniform f l -> incl l' l -> In c l ->
  f c <> None \/ forall x, In x l' -> f x = None.
Proof. intros [H|H] Hi Hc; [right; intros x Hx; apply H, Hi, Hx | left; apply H, Hc]. Qed.

Lemma numeric_keys_spec k : In k numeric_keys -> In k (map fst carbon_defaults).
Proof. intros H. apply carbon_names, H. Qed.

(** the parameters a configuration runs with do not depend on the configurations before it *)
Lemma history_free i0 cfgs hist c i i1 j : new_instance i0 -> (in_rf_run i0 = false -> self_contained i0 cfgs) ->
  incl hist cfgs -> In c cfgs ->
  cfg_runs i0 hist = Ok i -> cfg_run i c = Ok i1 -> cfg_run i0 c = Ok j -> same_parameters i1 j.
Proof.
  intros New Hself Hin Hc Hr H1 Hj.
  destruct (in_rf_run i0) eqn:R.
  - destruct (cfg_runs_rf hist i0 i Hr R) as (A1 & A2 & A3 & A4).
    destruct (cfg_run_rf i c i1 H1 A1) as (B1 & B2 & B3 & B4 & B5).
    destruct (cfg_run_rf i0 c j Hj R) as (C1 & C2 & C3 & C4 & C5).
    unfold same_parameters. rewrite B1, B2, B3, B4, B5, C1, C2, C3, C4, C5, A2, A3, A4.
    repeat split; try reflexivity. intros; discriminate.
  - destruct New as [New|(cfg & preind & Wc & _ & Hp & Hcb)]; [congruence|].
    destruct (Hself eq_refl) as (Wf & U1 & U2 & U3 & U4 & U5).
    destruct (cfg_runs_emi hist i0 i Hr R) as (A1 & A2 & _ & _).
    assert (Hr1 : cfg_runs i0 (hist ++ [c]) = Ok i1) by (rewrite cfg_runs_snoc, Hr; exact H1).
    destruct (cfg_runs_emi _ i0 i1 Hr1 R) as (B1 & B2 & B3 & B4).
    destruct (cfg_run_emi i c i1 H1 A1) as (_ & _ & B5 & _ & _).
    destruct (cfg_run_emi i0 c j Hj R) as (C1 & C2 & C3 & C4 & C5).
    rewrite map_app in B3, B4. cbn [map] in B3, B4. rewrite Hp in B3, C4.
    assert (Wi : opt_wf (Some (driver_emiconc cfg))).
    { unfold opt_wf. apply driver_emiconc_wf. }
    destruct (handler_same (in_env i0) (Some (driver_emiconc cfg)) hist (cf_emiconc c) (in_pams i1) (in_pams j)) as [P1 P2];
      try assumption.
    { intros x Hx. apply Wf, Hin, Hx. }
    { apply Wf, Hc. }
    { apply (uniform_split (fun c => given (cf_emiconc c) "just_one") cfgs hist c U1 Hin Hc). }
    destruct (carbon_same (in_carbon i0) hist (cf_carbon c) (in_carbon i1) (in_carbon j)) as (Q1 & Q2 & Q3 & Q4); try assumption.
    { exact (driver_carbon_ready _ _ _ _ Hcb). }
    { intros x Hx. apply Wf, Hin, Hx. }
    { apply Wf, Hc. }
    { intros k Hk. apply (uniform_split (fun c => number_given (cf_carbon c) k) cfgs hist c (U2 k (numeric_keys_spec k Hk)) Hin Hc). }
    { intros k Hk. destruct Hk as [<-|[<-|[]]].
      - apply (uniform_split (fun c => decay_given (cf_carbon c) "rs_function") cfgs hist c U3 Hin Hc).
      - apply (uniform_split (fun c => decay_given (cf_carbon c) "rb_function") cfgs hist c U4 Hin Hc). }
    { intros x v Hx. apply U5, Hin, Hx. }
    unfold same_parameters. rewrite B1, B2, B5, C1, C2, C3. repeat split; auto.
Qed.

(** a configuration that runs on a new instance runs after any others *)
Lemma carbon_reset_any c p c1 d : carbon_reset c p = Ok c1 -> exists c2, carbon_reset d p = Ok c2.
Proof.
  Transparent carbon_reset. unfold carbon_reset. destruct p as [p0|]; [|eauto].
  destruct (process_flat_carbon_parameters p0); [cbn [rbind]; eauto | discriminate].
  Opaque carbon_reset.
Qed.
Lemma runs_on i0 cfgs hist c i j : new_instance i0 -> (in_rf_run i0 = false -> self_contained i0 cfgs) ->
  incl hist cfgs -> In c cfgs -> cfg_runs i0 hist = Ok i -> cfg_run i0 c = Ok j -> exists i1, cfg_run i c = Ok i1.
Proof.
  intros New Hself Hin Hc Hr Hj. destruct (in_rf_run i0) eqn:R.
  - destruct (cfg_runs_rf hist i0 i Hr R) as (A1 & _). unfold cfg_run, instance_run. rewrite A1. eauto.
  - destruct New as [New|(cfg & preind & Wc & _ & Hp & Hcb)]; [congruence|].
    destruct (Hself eq_refl) as (Wf & _). destruct (cfg_runs_emi hist i0 i Hr R) as (A1 & A2 & A3 & A4).
    destruct (cfg_run_emi i0 c j Hj R) as (_ & _ & _ & _ & C5).
    assert (Wi : opt_wf (Some (driver_emiconc cfg))) by apply driver_emiconc_wf.
    assert (I : hinv (in_pams i)).
    { apply (handler_reruns_inv (in_env i0) (map cf_emiconc hist) (in_pams i0) (in_pams i)); [|rewrite Hp; apply handler_init_inv, Wi | exact A3].
      apply Forall_forall. intros x Hx. apply in_map_iff in Hx. destruct Hx as [y [<- Hy]]. apply Wf, Hin, Hy. }
    destruct (handler_rerun_ok (in_env i) (in_pams i) (cf_emiconc c) (proj1 (Wf c Hc)) I) as [d E1].
    destruct (carbon_reset_any _ _ _ (in_carbon i) C5) as [c2 E2].
    unfold cfg_run, instance_run. rewrite A1, E1. cbn [rbind]. rewrite E2. cbn [rbind]. eauto.
Qed.

Section Jobs.
Context {V W : Type}.
Variable construct : dict pyval -> result instance.
Variable writer : pyval -> pyval -> pyval -> result W.
Variable timeseries : pyval -> pyval -> instance -> string -> W -> result (option (list Z) * list V * string).
Hypothesis same : forall a b i1 i2 v w, same_parameters i1 i2 -> timeseries a b i1 v w = timeseries a b i2 v w.

Lemma variable_rows_same (w : wrapper W instance) i1 i2 ix vars : same_parameters i1 i2 ->
  variable_rows timeseries (with_cscm w i1) ix vars = variable_rows timeseries (with_cscm w i2) ix vars.
Proof.
  intros Hs. destruct w as [g st en cs sc mo]. unfold with_cscm. cbn [w_getter w_start w_end w_scen w_model].
  induction vars as [|v r IH]; [reflexivity|]. cbn [variable_rows w_start w_end w_cscm w_getter]. rewrite (same _ _ i1 i2 v g Hs).
  destruct (timeseries st en i2 v g) as [[[ys ts] u]|]; [|reflexivity]. cbn [rbind].
  destruct ys as [ys|]; [|exact IH]. destruct (String.eqb u "NoUnit"); [exact IH|]. destruct ix as [ix|]; [|reflexivity].
  rewrite IH. reflexivity.
Qed.

Lemma cfg_rows_spec (w : wrapper W instance) cfgs rows vars : let i0 := w_cscm w in
  new_instance i0 -> (in_rf_run i0 = false -> self_contained i0 cfgs) ->
  (forall c, In c cfgs -> exists j, cfg_run i0 c = Ok j /\ variable_rows timeseries (with_cscm w j) (cf_index c) vars = Ok (rows c)) ->
  forall bs hist i, incl hist cfgs -> incl bs cfgs -> cfg_runs i0 hist = Ok i ->
  cfg_rows instance_run timeseries (with_cscm w i) bs vars = Ok (flat_map rows bs).
Proof.
  intros i0 New Hself Hrow. induction bs as [|c r IH]; intros hist i Hh Hb Hr; [reflexivity|]. cbn [cfg_rows flat_map].
  assert (Hc : In c cfgs) by (apply Hb; left; reflexivity).
  destruct (Hrow c Hc) as (j & Hj & Hv). destruct (runs_on i0 cfgs hist c i j New Hself Hh Hc Hr Hj) as [i1 H1].
  change (w_cscm (with_cscm w i)) with i. change (instance_run i (cf_udm c) (cf_emiconc c) (cf_carbon c)) with (cfg_run i c).
  rewrite H1. cbn [rbind]. change (with_cscm (with_cscm w i) i1) with (with_cscm w i1).
  rewrite (variable_rows_same w i1 j (cf_index c) vars (history_free i0 cfgs hist c i i1 j New Hself Hh Hc Hr H1 Hj)), Hv. cbn [rbind].
  rewrite (IH (hist ++ [c]) i1); [reflexivity | | intros x Hx; apply Hb; right; exact Hx |].
  - intros x Hx. apply in_app_or in Hx. destruct Hx as [Hx|[<-|[]]]; [apply Hh, Hx | exact Hc].
  - rewrite cfg_runs_snoc, Hr. exact H1.
Qed.

Lemma c64 rows orders scens cfgs vars mw : scens <> [] -> cfgs <> [] -> (1 <= mw)%Z ->
  (forall s i, In s scens -> construct (check_numeric_pamset window_default s) = Ok i ->
     new_instance i /\ (in_rf_run i = false -> self_contained i cfgs)) ->
  (forall s c, In s scens -> In c cfgs ->
     execute_run construct writer instance_run timeseries {| j_cfgs := [c]; j_vars := vars; j_scen := s |} = Ok (rows s c)) ->
  run_ciceroscm_parallel (execute_run construct writer instance_run timeseries) orders scens cfgs vars mw =
  Ok (flat_map (fun s => flat_map (rows s) cfgs) scens).
Proof.
  intros Hs Hc Hm Hnew Hone. apply (c64_general _ rows); try assumption.
  intros s bs Hin Hbs Hi. unfold execute_run. cbn [j_scen j_cfgs j_vars].
  set (sd := check_numeric_pamset window_default s).
  assert (Hw : exists w, wrapper_init construct writer sd = Ok w).
  { destruct bs as [|c r]; [congruence|]. specialize (Hone s c Hin (Hi c (or_introl eq_refl))). unfold execute_run in Hone.
    cbn [j_scen] in Hone. fold sd in Hone. destruct (wrapper_init construct writer sd); [eauto | discriminate]. }
  destruct Hw as [w Hw]. rewrite Hw. cbn [rbind].
  assert (Hcon : construct sd = Ok (w_cscm w)).
  { unfold wrapper_init in Hw. destruct (item_of sd "nystart"); [|discriminate]. cbn [rbind] in Hw.
    destruct (item_of sd "nyend"); [|discriminate]. cbn [rbind] in Hw.
    destruct (if dmem sd "gaspam_file" then _ else _); [|discriminate]. cbn [rbind] in Hw.
    destruct (writer _ _ _); [|discriminate]. cbn [rbind] in Hw. destruct (construct sd); [|discriminate]. cbn [rbind] in Hw.
    destruct (item_of sd "scenname"); [|discriminate]. cbn [rbind] in Hw. injection Hw as <-. reflexivity. }
  destruct (Hnew s (w_cscm w) Hin Hcon) as [New Hself].
  assert (Hrow : forall c, In c cfgs -> rows s c <> [] /\
     exists j, cfg_run (w_cscm w) c = Ok j /\ variable_rows timeseries (with_cscm w j) (cf_index c) vars = Ok (rows s c)).
  { intros c Hcin. specialize (Hone s c Hin Hcin). unfold execute_run in Hone. cbn [j_scen j_cfgs j_vars] in Hone. fold sd in Hone.
    rewrite Hw in Hone. cbn [rbind] in Hone. unfold run_over_cfgs in Hone. cbn [cfg_rows] in Hone.
    change (instance_run (w_cscm w) (cf_udm c) (cf_emiconc c) (cf_carbon c)) with (cfg_run (w_cscm w) c) in Hone.
    destruct (cfg_run (w_cscm w) c) as [j|]; [|discriminate]. cbn [rbind] in Hone.
    destruct (variable_rows timeseries (with_cscm w j) (cf_index c) vars) as [rs|] eqn:E; [|discriminate]. cbn [rbind] in Hone.
    rewrite app_nil_r in Hone. destruct rs as [|x rs]; [discriminate|]. injection Hone as Hone. rewrite <- Hone.
    split; [discriminate|]. exists j. auto. }
  unfold run_over_cfgs.
  assert (Ew : w = with_cscm w (w_cscm w)) by (destruct w; reflexivity).
  rewrite Ew at 1.
  rewrite (cfg_rows_spec w cfgs (rows s) vars New Hself (fun c H => proj2 (Hrow c H)) bs [] (w_cscm w)).
  - cbn [rbind]. destruct bs as [|c r]; [congruence|]. cbn [flat_map].
    destruct (Hrow c (Hi c (or_introl eq_refl))) as [Hne _]. destruct (rows s c); [congruence | reflexivity].
  - intros x [].
  - exact Hi.
  - reflexivity.
Qed.
End Jobs.
