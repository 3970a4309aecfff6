(** * M_DistroRun: /repo/src/ciceroscm/parallel/distributionrun.py 64-79, a run over a distribution.
      The configurations are a list here, as they are unless the object was made from a list of chunks or from a document of
      another form ([Other] in M_Distro). *)
From Verif Require Import PyBase M_Parallel M_Distro.

(** [scendata]: one dictionary or a list of them (76-77) *)
Inductive scendata := OneScenario (s : dict pyval) | Scenarios (l : list (dict pyval)).
Definition scen_list (s : scendata) : list (dict pyval) := match s with OneScenario d => [d] | Scenarios l => l end.

Definition run_over_distribution {F} (execute : job (dict pyval) config -> result (list F)) (orders : list nat * list nat)
  (cfgs : list config) (s : scendata) (output_vars : list string) (max_workers : Z) : result (list F) :=
  run_ciceroscm_parallel execute orders (scen_list s) cfgs output_vars max_workers.
