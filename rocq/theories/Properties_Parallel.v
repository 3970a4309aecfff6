(** * Properties_Parallel: work lists, schedules and batching (C62-C64) *)
From Verif Require Import PyBase PyBaseFacts Num M_Utils M_Flat M_Pams M_Gas M_Parallel Spec_Pams Spec_Parallel
  P_Parallel P_Parallel2 P_Parallel3 P_Parallel4.

(** ** C62 *)
(** Every (scenario, configuration) pair is handed out exactly once and in order, whatever the number of workers. *)
Theorem C62_partition : forall (S C : Type) (scens : list S) (cfgs : list C) vars mw,
  exists jobs, work_list scens cfgs vars mw = Ok jobs /\ handed_out jobs = list_prod scens cfgs /\ (forall j, In j jobs -> j_vars j = vars).
Proof. exact @c62. Qed.
Print Assumptions C62_partition.
(** Few workers, or more workers than pairs: one job per scenario. Otherwise at least as many jobs as workers, none
    empty and none with more than its share. *)
Theorem C62_sizes : forall (S C : Type) (scens : list S) (cfgs : list C) vars mw jobs, work_list scens cfgs vars mw = Ok jobs ->
  let ns := List.length scens in let nc := List.length cfgs in
  ((mw <= Z.of_nat ns \/ Z.of_nat (nc * ns) < mw)%Z ->
     List.length jobs = ns /\ forall j, In j jobs -> j_cfgs j = cfgs) /\
  ((Z.of_nat ns < mw <= Z.of_nat (nc * ns))%Z ->
     (mw <= Z.of_nat (List.length jobs))%Z /\
     forall j, In j jobs -> (1 <= List.length (j_cfgs j))%nat /\ (Z.of_nat (List.length (j_cfgs j)) * mw <= Z.of_nat (nc * ns))%Z).
Proof. exact @c62_sizes. Qed.
Print Assumptions C62_sizes.
(** Two scenarios and five configurations on three workers: batches of three, so four jobs. *)
Example C62_example :
  work_list ["A"; "B"] [1; 2; 3; 4; 5]%nat ["T"] 3 =
    Ok [{| j_cfgs := [1; 2; 3]%nat; j_vars := ["T"]; j_scen := "A" |}; {| j_cfgs := [4; 5]%nat; j_vars := ["T"]; j_scen := "A" |};
        {| j_cfgs := [1; 2; 3]%nat; j_vars := ["T"]; j_scen := "B" |}; {| j_cfgs := [4; 5]%nat; j_vars := ["T"]; j_scen := "B" |}] /\
  work_list ["A"] [1; 2]%nat ["T"] 2 = Ok [{| j_cfgs := [1]%nat; j_vars := ["T"]; j_scen := "A" |}; {| j_cfgs := [2]%nat; j_vars := ["T"]; j_scen := "A" |}] /\
  work_list ["A"] [1; 2]%nat ["T"] 3 = Ok [{| j_cfgs := [1; 2]%nat; j_vars := ["T"]; j_scen := "A" |}] /\
  work_list ["A"] ([] : list nat) ["T"] 0 = Ok [{| j_cfgs := []; j_vars := ["T"]; j_scen := "A" |}].
Proof. vm_compute. repeat split. Qed.

(** ** C63 *)
(** If all jobs succeed, their results are returned in the order of the configurations, for any completion order. *)
Theorem C63_order : forall (C R : Type) (func : bool -> C -> result R) configs o1 o2 kw n m f,
  (forall c, In c configs -> func kw c = Ok (f c)) ->
  parallel_process func configs (Some (o1, o2)) kw n m = Ok (map (fun c => Value (f c)) configs).
Proof. exact @c63_order. Qed.
Print Assumptions C63_order.
(** If a job fails, the exception of a failing job is raised. *)
Theorem C63_failure : forall (C R : Type) (func : bool -> C -> result R) configs o1 o2 kw n m,
  schedule (List.length (firstn m (skipn n configs))) o1 -> schedule (List.length (skipn (n + m) configs)) o2 ->
  (exists c e, In c configs /\ func kw c = Err e) ->
  exists c e, In c configs /\ func kw c = Err e /\ parallel_process func configs (Some (o1, o2)) kw n m = Err e.
Proof. exact @c63_failure. Qed.
Print Assumptions C63_failure.
(** Which one depends on the machine: it is the first to complete, not the first of the list. *)
Theorem C63_first_to_complete : forall (C R : Type) (func : bool -> C -> result R) configs o1 before i after kw c e,
  nth_error configs i = Some c -> func kw c = Err e ->
  (forall j cj, In j before -> nth_error configs j = Some cj -> exists v, func kw cj = Ok v) ->
  parallel_process func configs (Some (o1, before ++ i :: after)) kw 0 0 = Err e.
Proof. exact @c63_first. Qed.
Print Assumptions C63_first_to_complete.
(** The second loop (88-90) would collect the exception of a job as a value; as all jobs are awaited before, it never does. *)
Theorem C63_collected : forall (C R : Type) (func : bool -> C -> result R) kw order configs l, run_parallel func kw order configs = Ok l ->
  (forall i c, nth_error configs i = Some c ->
     match func kw c with Ok v => nth_error l i = Some (Value v) | Err e => nth_error l i = Some (Raised e) /\ ~ In i order end) /\
  (schedule (List.length configs) order -> forall e, ~ In (Raised e) l).
Proof. exact @c63_collected. Qed.
Print Assumptions C63_collected.
(** A job that fails after the awaited ones would be collected as a value. *)
Example C63_collected_evaluated :
  let square (_ : bool) (n : Z) := if (n =? 0)%Z then Err ZeroDivisionError else Ok (n * n)%Z in
  run_parallel square true [2; 0]%nat [1; 0; 3]%Z = Ok [Value 1%Z; Raised ZeroDivisionError; Value 9%Z] /\
  run_parallel square true [2; 0; 1]%nat [1; 0; 3]%Z = Err ZeroDivisionError.
Proof. vm_compute. repeat split. Qed.
(** Without a pool the front results come last. *)
Theorem C63_serial_rotated : forall (C R : Type) (func : bool -> C -> result R) configs kw n m f,
  (forall c, In c configs -> func kw c = Ok (f c)) ->
  parallel_process func configs None kw n m = Ok (map (fun c => Value (f c)) (skipn n configs ++ firstn n configs)).
Proof. exact @c63_serial. Qed.
Print Assumptions C63_serial_rotated.
Theorem C63_serial_failure : forall (C R : Type) (func : bool -> C -> result R) configs kw n m,
  (exists c e, In c configs /\ func kw c = Err e) ->
  exists c e, In c configs /\ func kw c = Err e /\ parallel_process func configs None kw n m = Err e.
Proof. exact @c63_serial_failure. Qed.
Print Assumptions C63_serial_failure.
Example C63_example :
  let square (_ : bool) (n : Z) := if (n =? 0)%Z then Err ZeroDivisionError else if (n <? 0)%Z then Err ValueError else Ok (n * n)%Z in
  parallel_process square [1; 2; 3; 4]%Z (Some ([1; 0]%nat, [0]%nat)) true 1 2 = Ok [Value 1; Value 4; Value 9; Value 16]%Z /\
  parallel_process square [1; 2; 3; 4]%Z None true 1 2 = Ok [Value 4; Value 9; Value 16; Value 1]%Z /\
  parallel_process square [1; 0; -1]%Z (Some ([], [0; 1; 2]%nat)) true 0 0 = Err ZeroDivisionError /\
  parallel_process square [1; 0; -1]%Z (Some ([], [2; 0; 1]%nat)) true 0 0 = Err ValueError.
Proof. vm_compute. repeat split. Qed.

(** ** C64 *)
(** If the timeseries depend on the parameters of the instance only, and the configurations do not rely on what another
    one left behind, the number of workers and the completion order do not matter: the result is that of one job per
    (scenario, configuration). *)
Theorem C64_batching_invisible : forall (V W : Type) (construct : dict pyval -> result instance)
    (writer : pyval -> pyval -> pyval -> result W)
    (timeseries : pyval -> pyval -> instance -> string -> W -> result (option (list Z) * list V * string)),
  (forall a b i1 i2 v w, same_parameters i1 i2 -> timeseries a b i1 v w = timeseries a b i2 v w) ->
  forall rows orders scens cfgs vars mw, scens <> [] -> cfgs <> [] -> (1 <= mw)%Z ->
  (forall s i, In s scens -> construct (check_numeric_pamset window_default s) = Ok i ->
     new_instance i /\ (in_rf_run i = false -> self_contained i cfgs)) ->
  (forall s c, In s scens -> In c cfgs ->
     execute_run construct writer instance_run timeseries {| j_cfgs := [c]; j_vars := vars; j_scen := s |} = Ok (rows s c)) ->
  run_ciceroscm_parallel (execute_run construct writer instance_run timeseries) orders scens cfgs vars mw =
  Ok (flat_map (fun s => flat_map (rows s) cfgs) scens).
Proof. exact @c64. Qed.
Print Assumptions C64_batching_invisible.
(** Partial carbon sets: the number of workers changes the results. *)
Theorem C64_partial_sets_refuted : exists (construct : dict pyval -> result instance) (writer : pyval -> pyval -> pyval -> result unit) timeseries
    orders scen cfgs vars,
  (forall a b i1 i2 v w, same_parameters i1 i2 -> timeseries a b i1 v w = timeseries a b i2 v w) /\
  (forall i, construct (check_numeric_pamset window_default scen) = Ok i -> new_instance i) /\
  (forall c, In c cfgs -> opt_wf (cf_emiconc c) /\ opt_wf (cf_carbon c)) /\
  let run n := run_ciceroscm_parallel (F := list (label * cell pyval)) (execute_run construct writer instance_run timeseries) orders [scen] cfgs vars n in
  exists r1 r2, run 1%Z = Ok r1 /\ run 2%Z = Ok r2 /\ r1 <> r2.
Proof. exact c64_partial. Qed.
Print Assumptions C64_partial_sets_refuted.
(** Even complete carbon sets do: the start concentration is the preindustrial one of the previous configuration. *)
Theorem C64_complete_sets_refuted : exists (construct : dict pyval -> result instance) (writer : pyval -> pyval -> pyval -> result unit) timeseries
    orders scen cfgs vars,
  (forall a b i1 i2 v w, same_parameters i1 i2 -> timeseries a b i1 v w = timeseries a b i2 v w) /\
  (forall i, construct (check_numeric_pamset window_default scen) = Ok i -> new_instance i) /\
  (forall c, In c cfgs -> opt_wf (cf_emiconc c) /\ complete_carbon (cf_carbon c)) /\
  let run n := run_ciceroscm_parallel (F := list (label * cell pyval)) (execute_run construct writer instance_run timeseries) orders [scen] cfgs vars n in
  exists r1 r2, run 1%Z = Ok r1 /\ run 2%Z = Ok r2 /\ r1 <> r2.
Proof. exact c64_preindustrial. Qed.
Print Assumptions C64_complete_sets_refuted.
(** Nothing to run is a ValueError. *)
Theorem C64_no_scenarios : forall (S C F : Type) (execute : job S C -> result (list F)) orders vars mw cfgs,
  run_ciceroscm_parallel execute orders [] cfgs vars mw = Err ValueError.
Proof. intros S C F execute orders vars mw. exact (proj2 (c64_nothing execute orders vars mw)). Qed.
Print Assumptions C64_no_scenarios.
Theorem C64_no_configurations : forall (V W I : Type) construct writer cscm_run
    (timeseries : pyval -> pyval -> I -> string -> W -> result (option (list Z) * list V * string)) scen vars w,
  wrapper_init construct writer (check_numeric_pamset window_default scen) = Ok w ->
  execute_run construct writer cscm_run timeseries {| j_cfgs := []; j_vars := vars; j_scen := scen |} = Err ValueError.
Proof. exact @c64_no_cfgs. Qed.
Print Assumptions C64_no_configurations.
(** With several workers the exception of the failing job that completes first ends the call, with one worker that of the first failing job of the list. *)
Theorem C64_failing_job : forall (S C F : Type) (execute : job S C -> result (list F)) o1 o2 scens cfgs vars mw runs e,
  work_list scens cfgs vars mw = Ok runs ->
  ((1 < mw)%Z -> forall before i after j, o2 = before ++ i :: after -> nth_error runs i = Some j -> execute j = Err e ->
    (forall k jk, In k before -> nth_error runs k = Some jk -> exists v, execute jk = Ok v) ->
    run_ciceroscm_parallel execute (o1, o2) scens cfgs vars mw = Err e) /\
  (mw = 1%Z -> forall before j after, runs = before ++ j :: after -> execute j = Err e -> (forall jk, In jk before -> exists v, execute jk = Ok v) ->
    run_ciceroscm_parallel execute (o1, o2) scens cfgs vars mw = Err e).
Proof. exact @c64_failing. Qed.
Print Assumptions C64_failing_job.
(** Scenarios 0 and -1 fail; with two workers the second of them completes first. *)
Example C64_failing_evaluated :
  let execute (j : job Z Z) := if (j_scen j =? 0)%Z then Err ZeroDivisionError else if (j_scen j <? 0)%Z then Err ValueError else Ok (map (fun c => j_scen j * c)%Z (j_cfgs j)) in
  run_ciceroscm_parallel execute ([], [2; 0; 1]%nat) [0; -1; 5]%Z [3; 4]%Z [] 2 = Err ZeroDivisionError /\
  run_ciceroscm_parallel execute ([], [2; 1; 0]%nat) [0; -1; 5]%Z [3; 4]%Z [] 2 = Err ValueError /\
  run_ciceroscm_parallel execute ([], [2; 1; 0]%nat) [0; -1; 5]%Z [3; 4]%Z [] 1 = Err ZeroDivisionError /\
  run_ciceroscm_parallel execute ([], [2; 1; 0]%nat) [2; 5; 7]%Z [3; 4]%Z [] 2 = Ok [6; 8; 15; 20; 21; 28]%Z.
Proof. vm_compute. repeat split. Qed.
(** The two counterexamples, evaluated: one worker and two. *)
Example C64_example :
  let run f cfgs n := series_of (run_ciceroscm_parallel (execute_run ce_construct ce_writer instance_run (shows f)) ([], [1; 0]%nat) [ce_scen] cfgs ["X"] n) in
  run beta_f partial_cfgs 1%Z = [Number (flt 5 10); Number (flt 5 10)] /\
  run beta_f partial_cfgs 2%Z = [Number (flt 5 10); Number (flt 287 1000)] /\
  run start_co2 full_cfgs 1%Z = [Number (flt 280 1); Number (flt 285 1)] /\
  run start_co2 full_cfgs 2%Z = [Number (flt 280 1); Number (flt 280 1)].
Proof. cbv zeta. exact (conj partial_one (conj partial_two (conj full_one full_two))). Qed.
(** Two configurations that the first theorem covers: both give the same two names. *)
Definition ce_uniform : list config := [cfg_of [("beta_f", flt 5 10); ("t_half", flt 4 10)] "0"; cfg_of [("beta_f", flt 3 10); ("t_half", flt 6 10)] "1"].
Example C64_example_uniform :
  (forall i, self_contained i ce_uniform) /\
  let run n := series_of (run_ciceroscm_parallel (execute_run ce_construct ce_writer instance_run (shows beta_f)) ([], [1; 0]%nat) [ce_scen] ce_uniform ["X"] n) in
  run 1%Z = [Number (flt 5 10); Number (flt 3 10)] /\ run 2%Z = [Number (flt 5 10); Number (flt 3 10)].
Proof.
  split.
  - intros i. split; [intros c [<-|[<-|[]]]; split; apply wf_lit; reflexivity|].
    split; [left; intros c [<-|[<-|[]]]; reflexivity|]. split.
    { intros k Hk. unfold uniform. destruct (String.eqb_spec k "beta_f") as [->|N1]; [right; intros c [<-|[<-|[]]]; discriminate|].
      destruct (String.eqb_spec k "t_half") as [->|N2]; [right; intros c [<-|[<-|[]]]; discriminate|].
      left. apply String.eqb_neq in N1, N2. rewrite String.eqb_sym in N1. rewrite String.eqb_sym in N2.
      intros c [<-|[<-|[]]]; unfold number_given, given; cbn [cfg_of cf_carbon dget];
      rewrite ?(String.eqb_sym k), N1, N2; reflexivity. }
    split; [left; intros c [<-|[<-|[]]]; vm_compute; reflexivity|]. split; [left; intros c [<-|[<-|[]]]; vm_compute; reflexivity|].
    intros c v [<-|[<-|[]]]; discriminate.
  - vm_compute. split; reflexivity.
Qed.
