From Verif Require Import PyBase PyBaseFacts Num M_Utils M_Flat M_Pams M_Gas M_Parallel Spec_Pams Spec_Parallel
  P_Pams P_Parallel P_Parallel2 P_Parallel3.
Transparent handler_required handler_used carbon_required check_pamset check_pamset_caller handler_rerun carbon_reset driver_emiconc
  handler_init driver_carbon carbon_cycle_init_pamsets process_flat_carbon_parameters carbon_used.

(** Two configurations and a model whose only output is one carbon parameter. *)
Definition ce_env : handler_env :=
  {| env_gases := ["CO2"; "CH4"]; env_conc_run := VBool false; env_forc_pert := None; env_cl := VObj 1; env_br := VObj 2 |}.
Definition ce_construct (d : dict pyval) : result instance :=
  do c <- driver_carbon ce_env d (flt 280 1);
  Ok {| in_env := ce_env; in_rf_run := false; in_pams := handler_init ce_env (Some (driver_emiconc d)); in_carbon := c; in_udm := None |}.
Definition ce_writer (_ _ _ : pyval) : result unit := Ok tt.
Definition shows (f : instance -> pyval) (_ _ : pyval) (i : instance) (_ : string) (_ : unit)
  : result (option (list Z) * list pyval * string) := Ok (Some [1750%Z], [f i], "1").
Definition beta_f (i : instance) : pyval := dget_def (c_pam (in_carbon i)) "beta_f".
Definition start_co2 (i : instance) : pyval := match c_x0 (in_carbon i) with Some v => v | None => VNone end.
Definition ce_scen : dict pyval := [("gaspam_file", VStr "gases.txt"); ("scenname", VStr "A")].
Definition cfg_of (carbon : dict pyval) (n : string) : config :=
  {| cf_udm := None; cf_emiconc := Some []; cf_carbon := Some carbon; cf_index := Some (VStr n) |}.
Definition partial_cfgs : list config :=
  [cfg_of [("beta_f", flt 5 10)] "0"; cfg_of [("mixed_carbon", flt 60 1)] "1"].
Definition full_set (preind : pyval) : dict pyval :=
  [ ("beta_f", flt 287 1000); ("mixed_carbon", flt 75 1); ("ml_w_sigmoid", flt 3 1); ("ml_fracmax", flt 5 10);
    ("ml_t_half", flt 5 10); ("t_half", flt 5 10); ("w_sigmoid", VInt 7); ("t_threshold", VInt 4); ("w_threshold", VInt 7);
    ("solubility_sens", flt 2 100); ("solubility_limit", flt 5 10); ("ml_depth_min", flt 10 1);
    ("preindustrial_co2_conc", preind);
    ("rs_function", VFun [flt 1 10; flt 6 10] [flt 8 10]); ("rb_function", VFun [flt 7 10] [flt 28 10])].
Definition full_cfgs : list config := [cfg_of (full_set (flt 285 1)) "0"; cfg_of (full_set (flt 275 1)) "1"].

Local Notation outcome_of f cfgs mw :=
  (run_ciceroscm_parallel (execute_run ce_construct ce_writer instance_run (shows f)) ([], [1; 0]%nat) [ce_scen] cfgs ["X"] mw%Z).

Lemma ce_new i : ce_construct (check_numeric_pamset window_default ce_scen) = Ok i -> new_instance i.
Proof.
  unfold ce_construct. set (d := check_numeric_pamset window_default ce_scen).
  assert (Wd : wf d) by (apply check_numeric_wf; apply wf_lit; reflexivity). clearbody d.
  destruct (driver_carbon ce_env d (flt 280 1)) as [c|] eqn:E; [|discriminate]. cbn [rbind]. intros H. injection H as <-.
  right. exists d, (flt 280 1). repeat split; assumption.
Qed.

Definition series_of (r : result (list (list (label * cell pyval)))) : list (cell pyval) :=
  match r with Ok rows => map (fun row => match rev row with x :: _ => snd x | [] => Text VNone end) rows | Err _ => [] end.
Lemma partial_one : series_of (outcome_of beta_f partial_cfgs 1) = [Number (flt 5 10); Number (flt 5 10)].
Proof. vm_compute. reflexivity. Qed.
Lemma partial_two : series_of (outcome_of beta_f partial_cfgs 2) = [Number (flt 5 10); Number (flt 287 1000)].
Proof. vm_compute. reflexivity. Qed.
Lemma full_one : series_of (outcome_of start_co2 full_cfgs 1) = [Number (flt 280 1); Number (flt 285 1)].
Proof. vm_compute. reflexivity. Qed.
Lemma full_two : series_of (outcome_of start_co2 full_cfgs 2) = [Number (flt 280 1); Number (flt 280 1)].
Proof. vm_compute. reflexivity. Qed.

Lemma shows_same f : (forall i1 i2, same_parameters i1 i2 -> f i1 = f i2) ->
  forall a b i1 i2 v w, same_parameters i1 i2 -> shows f a b i1 v w = shows f a b i2 v w.
Proof. intros H a b i1 i2 v w S. unfold shows. rewrite (H i1 i2 S). reflexivity. Qed.

Lemma differ a b x y : series_of a = x -> series_of b = y -> x <> [] -> y <> [] -> x <> y ->
  exists r1 r2, a = Ok r1 /\ b = Ok r2 /\ r1 <> r2.
Proof.
  intros Ha Hb Nx Ny N. destruct a as [r1|]; [|cbn [series_of] in Ha; congruence]. destruct b as [r2|]; [|cbn [series_of] in Hb; congruence].
  exists r1, r2. split; [reflexivity|]. split; [reflexivity|]. intros ->. congruence.
Qed.

Lemma partial_differ : exists r1 r2, outcome_of beta_f partial_cfgs 1 = Ok r1 /\ outcome_of beta_f partial_cfgs 2 = Ok r2 /\ r1 <> r2.
Proof.
  pose proof partial_one as P1. pose proof partial_two as P2.
  set (a := outcome_of beta_f partial_cfgs 1) in *. clearbody a. set (b := outcome_of beta_f partial_cfgs 2) in *. clearbody b.
  eapply differ; [exact P1 | exact P2 | discriminate | discriminate | discriminate].
Qed.

Lemma c64_partial : exists (construct : dict pyval -> result instance) (writer : pyval -> pyval -> pyval -> result unit) timeseries
    orders scen cfgs vars,
  (forall a b i1 i2 v w, same_parameters i1 i2 -> timeseries a b i1 v w = timeseries a b i2 v w) /\
  (forall i, construct (check_numeric_pamset window_default scen) = Ok i -> new_instance i) /\
  (forall c, In c cfgs -> opt_wf (cf_emiconc c) /\ opt_wf (cf_carbon c)) /\
  let run n := run_ciceroscm_parallel (F := list (label * cell pyval)) (execute_run construct writer instance_run timeseries) orders [scen] cfgs vars n in
  exists r1 r2, run 1%Z = Ok r1 /\ run 2%Z = Ok r2 /\ r1 <> r2.
Proof.
  exists ce_construct, ce_writer, (shows beta_f), ([], [1; 0]%nat), ce_scen, partial_cfgs, ["X"].
  split; [apply shows_same; intros i1 i2 S; unfold beta_f, dget_def; destruct S as (_ & _ & _ & _ & _ & S & _); rewrite S; reflexivity|].
  split; [exact ce_new|]. split.
  { intros c [<-|[<-|[]]]; split; apply wf_lit; reflexivity. }
  cbv zeta. pose proof partial_differ as D. exact D.
Qed.

Lemma full_differ : exists r1 r2, outcome_of start_co2 full_cfgs 1 = Ok r1 /\ outcome_of start_co2 full_cfgs 2 = Ok r2 /\ r1 <> r2.
Proof.
  pose proof full_one as P1. pose proof full_two as P2.
  set (a := outcome_of start_co2 full_cfgs 1) in *. clearbody a. set (b := outcome_of start_co2 full_cfgs 2) in *. clearbody b.
  eapply differ; [exact P1 | exact P2 | discriminate | discriminate | discriminate].
Qed.

Lemma c64_preindustrial : exists (construct : dict pyval -> result instance) (writer : pyval -> pyval -> pyval -> result unit) timeseries
    orders scen cfgs vars,
  (forall a b i1 i2 v w, same_parameters i1 i2 -> timeseries a b i1 v w = timeseries a b i2 v w) /\
  (forall i, construct (check_numeric_pamset window_default scen) = Ok i -> new_instance i) /\
  (forall c, In c cfgs -> opt_wf (cf_emiconc c) /\ complete_carbon (cf_carbon c)) /\
  let run n := run_ciceroscm_parallel (F := list (label * cell pyval)) (execute_run construct writer instance_run timeseries) orders [scen] cfgs vars n in
  exists r1 r2, run 1%Z = Ok r1 /\ run 2%Z = Ok r2 /\ r1 <> r2.
Proof.
  exists ce_construct, ce_writer, (shows start_co2), ([], [1; 0]%nat), ce_scen, full_cfgs, ["X"].
  split; [apply shows_same; intros i1 i2 S; unfold start_co2; destruct S as (_ & _ & _ & _ & _ & _ & S & _); rewrite S; reflexivity|].
  split; [exact ce_new|]. split.
  { assert (Q : forall v n, is_num v = true -> opt_wf (cf_emiconc (cfg_of (full_set v) n)) /\ complete_carbon (cf_carbon (cfg_of (full_set v) n))).
    { intros v n Hv. split; [apply wf_lit; reflexivity|]. split; [apply wf_lit; reflexivity|]. split.
      - intros k Hk. cbn [map carbon_defaults fst In] in Hk.
        repeat (destruct Hk as [<-|Hk]; [cbv [number_given given cfg_of cf_carbon full_set dget String.eqb Ascii.eqb Bool.eqb]; rewrite ?Hv; discriminate|]).
        destruct Hk.
      - split; vm_compute; discriminate. }
    intros c [<-|[<-|[]]]; apply Q; reflexivity. }
  cbv zeta. pose proof full_differ as D. exact D.
Qed.

(** Nothing to run is a ValueError. *)
Lemma c64_nothing {S C F} (execute : job S C -> result (list F)) orders vars mw :
  run_ciceroscm_parallel execute orders [] [] vars mw = Err ValueError /\
  (forall cfgs, run_ciceroscm_parallel execute orders [] cfgs vars mw = Err ValueError).
Proof.
  assert (Q : forall cfgs, run_ciceroscm_parallel execute orders [] cfgs vars mw = Err ValueError).
  { intros cfgs. unfold run_ciceroscm_parallel. unfold work_list. cbv zeta. cbn [List.length map flat_map].
    change (Z.of_nat 0) with 0%Z. rewrite Z.mul_0_r.
    assert (E : ((mw <=? 0)%Z || (0 <? mw)%Z)%bool = true) by (destruct (Z.leb_spec mw 0); [reflexivity | cbn [orb]; apply Z.ltb_lt; lia]).
    rewrite E. cbn [rbind]. destruct (mw =? 1)%Z; [reflexivity|]. destruct (mw <=? 0)%Z; [reflexivity|]. destruct orders as [o1 o2].
    rewrite (c63_order (fun _ => execute) [] o1 o2 true _ _ (fun _ => [])); [reflexivity | intros c []]. }
  split; [apply Q | exact Q].
Qed.
(** A failing job. *)
Lemma c64_failing {S C F} (execute : job S C -> result (list F)) o1 o2 scens cfgs vars mw runs e :
  work_list scens cfgs vars mw = Ok runs ->
  ((1 < mw)%Z -> forall before i after j, o2 = before ++ i :: after -> nth_error runs i = Some j -> execute j = Err e ->
    (forall k jk, In k before -> nth_error runs k = Some jk -> exists v, execute jk = Ok v) ->
    run_ciceroscm_parallel execute (o1, o2) scens cfgs vars mw = Err e) /\
  (mw = 1%Z -> forall before j after, runs = before ++ j :: after -> execute j = Err e -> (forall jk, In jk before -> exists v, execute jk = Ok v) ->
    run_ciceroscm_parallel execute (o1, o2) scens cfgs vars mw = Err e).
Proof.
  intros W. split.
  - intros M before i after j O I J B. unfold run_ciceroscm_parallel. rewrite W. cbn [rbind].
    replace (mw =? 1)%Z with false by (symmetry; apply Z.eqb_neq; lia). replace (mw <=? 0)%Z with false by (symmetry; apply Z.leb_gt; lia).
    rewrite O. unfold FRONT_SERIAL, FRONT_PARALLEL. rewrite (c63_first (fun _ => execute) runs o1 before i after true j e I J B). reflexivity.
  - intros M before j after R J B. unfold run_ciceroscm_parallel. rewrite W. cbn [rbind]. rewrite M. cbn [Z.eqb Pos.eqb].
    replace (mapM execute runs) with (Err (A := list (list F)) e); [reflexivity|]. rewrite R. clear W R. symmetry. induction before as [|b r IH]; cbn [app mapM].
    + rewrite J. reflexivity.
    + destruct (B b (or_introl eq_refl)) as [v ->]. cbn [rbind]. rewrite IH; [reflexivity|]. intros jk Hk. apply B. right. exact Hk.
Qed.
Lemma c64_no_cfgs {V W I} construct writer (cscm_run : I -> _) (timeseries : pyval -> pyval -> I -> string -> W -> result (option (list Z) * list V * string)) scen vars w :
  wrapper_init construct writer (check_numeric_pamset window_default scen) = Ok w ->
  execute_run construct writer cscm_run timeseries {| j_cfgs := []; j_vars := vars; j_scen := scen |} = Err ValueError.
Proof. intros H. unfold execute_run. cbn [j_scen j_cfgs j_vars]. rewrite H. reflexivity. Qed.
