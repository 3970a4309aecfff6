(** * Spec_Distro: what a distribution of configurations is supposed to be. *)
From Verif Require Import PyBase Num M_Parallel Spec_Pams.

(** Thermal parameters, numbers of the carbon cycle, and flat names of decay functions. *)
Definition thermal (k : string) : Prop :=
  In k ["rlamdo"; "akapa"; "cpi"; "W"; "beto"; "lambda"; "mixed"; "ocean_efficacy"; "delta_lambda_aero"; "threstemp"; "lm"; "ldtime"].
Definition carbon_number (k : string) : Prop := In k (map fst carbon_defaults).
Definition decay_name (k : string) : Prop := exists r, k = ("rb_" ++ r)%string \/ k = ("rs_" ++ r)%string.

(** [v] is the value of [k] in exactly one of the three sets of a configuration. *)
Definition only_thermal (c : config) (k : string) (v : pyval) : Prop :=
  given (cf_udm c) k = Some v /\ given (cf_emiconc c) k = None /\ given (cf_carbon c) k = None.
Definition only_emission (c : config) (k : string) (v : pyval) : Prop :=
  given (cf_udm c) k = None /\ given (cf_emiconc c) k = Some v /\ given (cf_carbon c) k = None.
Definition only_carbon (c : config) (k : string) (v : pyval) : Prop :=
  given (cf_udm c) k = None /\ given (cf_emiconc c) k = None /\ given (cf_carbon c) k = Some v.
Definition nowhere (c : config) (k : string) : Prop :=
  given (cf_udm c) k = None /\ given (cf_emiconc c) k = None /\ given (cf_carbon c) k = None.

(** Two configurations that differ in their index only. *)
Definition same_sets (c1 c2 : config) : Prop :=
  cf_udm c1 = cf_udm c2 /\ cf_emiconc c1 = cf_emiconc c2 /\ cf_carbon c1 = cf_carbon c2.

(** A numpy float comes back from a file as a float, everything else as it was. *)
Fixpoint as_read (v : pyval) : pyval :=
  match v with
  | VNpFloat f => VFloat f
  | VFun cs ts => VFun (map as_read cs) (map as_read ts)
  | _ => v
  end.
Definition set_as_read (d : dict pyval) : dict pyval := map (fun kv => (fst kv, as_read (snd kv))) d.
Definition config_as_read (c : config) : config :=
  {| cf_udm := option_map set_as_read (cf_udm c); cf_emiconc := option_map set_as_read (cf_emiconc c);
     cf_carbon := option_map set_as_read (cf_carbon c); cf_index := option_map as_read (cf_index c) |}.

(** What can be written: no numpy integers and no objects other than decay functions. *)
Fixpoint writable (v : pyval) : Prop :=
  match v with
  | VNpInt _ | VObj _ => False
  | VFun cs ts =>
      let all := fix all (l : list pyval) : Prop := match l with [] => True | x :: r => writable x /\ all r end in
      all cs /\ all ts
  | _ => True
  end.
Definition set_writable (o : option (dict pyval)) : Prop :=
  match o with Some d => forall k v, In (k, v) d -> writable v | None => True end.
Definition config_writable (c : config) : Prop :=
  set_writable (cf_udm c) /\ set_writable (cf_emiconc c) /\ set_writable (cf_carbon c) /\
  match cf_index c with Some v => writable v | None => True end.

(** The names that the emission handler knows. *)
Definition handler_names : list string :=
  ["qbmb"; "qo3"; "qdirso2"; "qindso2"; "qbc"; "qoc"; "qh2o_ch4"; "ref_yr"; "qnmvoc"; "qnh3"; "qnox"; "idtm"; "nystart"; "nyend"; "emstart";
   "lifetime_mode"; "just_one"; "carbon_cycle_model"].
