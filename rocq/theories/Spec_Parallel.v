(** * Spec_Parallel: what parallel runs are supposed to do. *)
From Coq Require Import Permutation.
From Verif Require Import PyBase Spec_Pams M_Pams M_Parallel.

(** Every (scenario, configuration) pair of a work list, in the order of the list. *)
Definition handed_out {S C} (jobs : list (job S C)) : list (S * C) :=
  flat_map (fun j => map (pair (j_scen j)) (j_cfgs j)) jobs.

(** A completion order of [n] jobs: each job completes once. *)
Definition schedule (n : nat) (order : list nat) : Prop := Permutation order (seq 0 n).

(** What a parameter set gives for a number [k]: its value if it is a number. *)
Definition number_given (p : option (dict pyval)) (k : string) : option pyval :=
  match given p k with Some v => if is_num v then Some v else None | None => None end.

(** All configurations give something, or none does. *)
Definition uniform {C} (f : C -> option pyval) (cfgs : list C) : Prop :=
  (forall c, In c cfgs -> f c = None) \/ (forall c, In c cfgs -> f c <> None).

(** The decay function [k] given by a carbon parameter set, directly or by flat names: the entry that the set
    has after flat names are collected. *)
Definition decay_given (p : option (dict pyval)) (k : string) : option pyval :=
  match p with
  | Some d => match M_Flat.process_flat_carbon_parameters d with Ok d' => dget d' k | Err _ => None end
  | None => None
  end.

(** Two values equal to a common one, as python compares them. *)
Definition alike (v w : option pyval) : Prop :=
  exists a b u, v = Some a /\ w = Some b /\ (a = u \/ py_eqb a u = true) /\ (b = u \/ py_eqb b u = true).

(** Two instances that hold the same parameters. *)
Definition same_parameters (i1 i2 : instance) : Prop :=
  in_env i1 = in_env i2 /\ in_rf_run i1 = in_rf_run i2 /\ in_udm i1 = in_udm i2 /\
  (forall k, ~ In k ["idtm"; "nystart"; "nyend"; "emstart"] -> dget (in_pams i1) k = dget (in_pams i2) k) /\
  (forall k, In k ["idtm"; "nystart"; "nyend"; "emstart"] -> in_rf_run i1 = false ->
     alike (dget (in_pams i1) k) (dget (in_pams i2) k)) /\
  (forall k, dget (c_pam (in_carbon i1)) k = dget (c_pam (in_carbon i2)) k) /\
  c_x0 (in_carbon i1) = c_x0 (in_carbon i2) /\
  c_rs (in_carbon i1) = c_rs (in_carbon i2) /\ c_rb (in_carbon i1) = c_rb (in_carbon i2).

(** A new instance of a run other than a forcing run: handler parameters, carbon parameters and decay functions
    as the constructor leaves them. *)
Definition new_instance (i : instance) : Prop :=
  in_rf_run i = true \/
  exists cfg preind, wf cfg /\ in_rf_run i = false /\
    in_pams i = handler_init (in_env i) (Some (driver_emiconc cfg)) /\
    driver_carbon (in_env i) cfg preind = Ok (in_carbon i).

(** Configurations that do not rely on what an earlier configuration left behind. *)
Definition self_contained (i : instance) (cfgs : list config) : Prop :=
  (forall c, In c cfgs -> opt_wf (cf_emiconc c) /\ opt_wf (cf_carbon c)) /\
  uniform (fun c => given (cf_emiconc c) "just_one") cfgs /\
  (forall k, In k (map fst carbon_defaults) -> uniform (fun c => number_given (cf_carbon c) k) cfgs) /\
  uniform (fun c => decay_given (cf_carbon c) "rs_function") cfgs /\
  uniform (fun c => decay_given (cf_carbon c) "rb_function") cfgs /\
  (forall c v, In c cfgs -> number_given (cf_carbon c) "preindustrial_co2_conc" = Some v ->
     dget (c_pam (in_carbon i)) "preindustrial_co2_conc" = Some v).

(** A complete carbon parameter set: every number and both decay functions. *)
Definition complete_carbon (p : option (dict pyval)) : Prop :=
  opt_wf p /\ (forall k, In k (map fst carbon_defaults) -> number_given p k <> None) /\
  decay_given p "rs_function" <> None /\ decay_given p "rb_function" <> None.
