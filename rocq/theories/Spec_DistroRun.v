(** * Spec_DistroRun: the rows of a job (C107) *)
From Verif Require Import PyBase M_Parallel.

Section Rows.
Context {V W I : Type}.
Variable cscm_run : I -> option (dict pyval) -> option (dict pyval) -> option (dict pyval) -> result I.
Variable timeseries : pyval -> pyval -> I -> string -> W -> result (option (list Z) * list V * string).

(** [ms] are the instances after the runs with [cfgs], one after the other from [m]. *)
Fixpoint one_after_the_other (m : I) (cfgs : list config) (ms : list I) {struct cfgs} : Prop :=
  match cfgs, ms with
  | [], [] => True
  | c :: cs, m' :: ms' => cscm_run m (cf_udm c) (cf_emiconc c) (cf_carbon c) = Ok m' /\ one_after_the_other m' cs ms'
  | _, _ => False
  end.
(** The row of a variable: the scenario's name is both model and scenario. *)
Definition expected_row (scen index : pyval) (variable unit : string) (years : list Z) (series : list V) : list (label * cell V) :=
  [(Name "climate_model", Text (VStr "CICERO-SCM-PY")); (Name "model", Text scen); (Name "run_id", Text index); (Name "scenario", Text scen);
   (Name "region", Text (VStr "World")); (Name "variable", Text (VStr variable)); (Name "unit", Text (VStr unit))]
  ++ map (fun ys => (Year (fst ys), Number (snd ys))) (combine years series).
(** The rows of variable [v] after the run with configuration [c]: none without a unit. *)
Definition rows_of_variable (st en scen : pyval) (g : W) (c : config) (m : I) (v : string) (rows : list (list (label * cell V))) : Prop :=
  exists years series unit, timeseries st en m v g = Ok (years, series, unit) /\
    match years with
    | Some ys => (unit = "NoUnit"%string /\ rows = []) \/
                 (unit <> "NoUnit"%string /\ List.length ys = List.length series /\ exists ix, cf_index c = Some ix /\ rows = [expected_row scen ix v unit ys series])
    | None => rows = []
    end.
(** [rows] are those of each variable in turn, for each configuration in turn. *)
Inductive in_turn {X Y} (P : X -> list Y -> Prop) : list X -> list Y -> Prop :=
| turn_none : in_turn P [] []
| turn_more : forall x xs r rs, P x r -> in_turn P xs rs -> in_turn P (x :: xs) (r ++ rs).
Definition rows_of_job (st en scen : pyval) (g : W) (vars : list string) (cfgs : list config) (ms : list I) (rows : list (list (label * cell V))) : Prop :=
  in_turn (fun cm => in_turn (rows_of_variable st en scen g (fst cm) (snd cm)) vars) (combine cfgs ms) rows.
End Rows.
