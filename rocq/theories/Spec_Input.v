(** * Spec_Input: where input comes from, said without the handler's bookkeeping *)
From Coq Require Import Sorted.
From Verif Require Import PyBase Num M_Gas M_Input.

(** ** Selection of input *)
Definition sun_volc (what : string) : bool := smem what ["rf_sun"; "rf_volc_n"; "rf_volc_s"].
Definition known_key (k : string) : bool :=
  smem k ["sunvolc"; "conc_run"; "idtm"; "nystart"; "nyend"; "emstart"; "carbon_cycle_model"; "thermal_model"] ||
  existsb (fun what => String.eqb k (what ++ "_file") || String.eqb k (what ++ "_data"))
    ["forc"; "gaspam"; "nat_ch4"; "nat_n2o"; "concentrations"; "emissions"; "perturb_em"; "perturb_forc";
     "rf_luc"; "rf_sun"; "rf_volc_n"; "rf_volc_s"].
(** the number given under [k], or the default *)
Definition number (cfg : dict pyval) (k : string) (default : Z) : pyval :=
  match dget cfg k with Some v => if is_num v then v else VInt default | None => VInt default end.
Definition sunvolc_on (cfg : dict pyval) : bool := match dget cfg "sunvolc" with Some v => py_eqb v (VInt 1) | None => false end.
Definition given (cfg : dict pyval) (what : string) : bool := dmem cfg (what ++ "_file") || dmem cfg (what ++ "_data").
(** the years of the run, if they are integers *)
Definition run_years_of (cfg : dict pyval) (years : list Z) : Prop :=
  exists a b, int_of (number cfg "nystart" 1750) = Ok a /\ int_of (number cfg "nyend" 2100) = Ok b /\
    years = zrange a (Z.to_nat (b + 1 - a)).
(** the inputs with their reading methods *)
Definition spec_methods (cfg : dict pyval) : dict rmethod :=
  let a := number cfg "nystart" 1750 in let b := number cfg "nyend" 2100 in
  [("forc", MForc); ("gaspam", MComponents); ("nat_ch4", MNatural "CH4"); ("nat_n2o", MNatural "N2O");
   ("concentrations", MInput a b); ("emissions", MEmissions a b); ("perturb_em", MCsvNoIndex); ("perturb_forc", MCsv);
   ("rf_luc", MYearRow a b); ("rf_sun", MYearRow a b); ("rf_volc_n", MYearRow a b); ("rf_volc_s", MYearRow a b)].

Section Source.
Context {A : Type} (exists_ : cval A -> bool) (gas_table : datum A -> result (dict (gasrow A))) (default_data_dir cwd : string).
(** the path that is read for a configured file: natural emissions have a fallback *)
Definition file_read (what : string) (p : pyval) (p' : cval A) : Prop :=
  if exists_ (CV p) then p' = CV p
  else exists c, what = ("nat_" ++ c)%string /\ In c ["ch4"; "n2o"] /\
       p' = CV (VStr (cwd ++ "/input_OTHER/NATEMIS/natemis_" ++ c ++ ".txt")).
Definition default_of (name : string) : cval A := CV (VStr (default_data_dir ++ "/" ++ name)).
(** [source cfg what m d]: input [what], whose reading method is [m], comes from [d] *)
Inductive source (cfg : dict pyval) (what : string) (m : rmethod) : datum A -> Prop :=
| S_file p p' : dget cfg (what ++ "_file") = Some p -> file_read what p p' -> source cfg what m (Read m p')
| S_zeros years : dget cfg (what ++ "_file") = None -> sun_volc what = true -> sunvolc_on cfg = false -> run_years_of cfg years ->
    source cfg what m (Given (CZeros years (if String.eqb what "rf_sun" then 1 else 12)))
| S_data v : dget cfg (what ++ "_file") = None -> dget cfg (what ++ "_data") = Some v -> sun_volc what && negb (sunvolc_on cfg) = false ->
    source cfg what m (Given (CV v))
| S_luc : what = "rf_luc" -> given cfg what = false -> source cfg what m (Read m (default_of "IPCC_LUCalbedo.txt"))
| S_sun : what = "rf_sun" -> given cfg what = false -> sunvolc_on cfg = true -> source cfg what m (Read m (default_of "solar_IPCC.txt"))
| S_volc : what = "rf_volc_n" \/ what = "rf_volc_s" -> given cfg "rf_volc_n" = false -> given cfg "rf_volc_s" = false -> sunvolc_on cfg = true ->
    source cfg what m (Read m (default_of "meanVOLCmnd_ipcc_NH.txt"))
| S_natural c C years d g r : (c, C) = ("nat_ch4", "CH4") \/ (c, C) = ("nat_n2o", "N2O") -> what = c -> given cfg what = false ->
    source cfg "gaspam" MComponents d -> gas_table d = Ok g -> dget g C = Some r -> run_years_of cfg years ->
    source cfg what m (Given (CFlat years C (nat_em r))).
(** the inputs for which nothing is used although they may be needed *)
Definition no_source (cfg : dict pyval) (what : string) : Prop :=
  given cfg what = false /\
  ~ In what ["rf_luc"; "rf_sun"] /\
  (In what ["rf_volc_n"; "rf_volc_s"] -> sunvolc_on cfg = true /\ (given cfg "rf_volc_n" = true \/ given cfg "rf_volc_s" = true)) /\
  (In what ["nat_ch4"; "nat_n2o"] -> given cfg "gaspam" = false).
End Source.

(** ** Tables by year *)
Definition ascending (years : list Z) : Prop := StronglySorted Z.lt years.

(** ** Unit checks *)
(** names without emissions and concentrations of their own, which every gas table must have *)
Definition no_em : list string := ["LANDUSE"; "OTHER"; "SO4_IND"; "TROP_O3"; "STRAT_O3"; "STRAT_H2O"; "BMB_AEROS"].
Definition checked {A} (g : dict (gasrow A)) (k : string) (r : gasrow A) : Prop := dget g k = Some r /\ ~ In k no_em.
(** the header of a configured file, if there is one *)
Definition header_of {A} (header : cval A -> result (dict string)) (h : hcfg A) (k : string) (o : option (dict string)) : Prop :=
  match dget h k with None => o = None | Some p => exists hd, header p = Ok hd /\ o = Some hd end.

(** ** Forcing tables *)
Section Tables.
Context {A : Type} {N : Num A}.
Local Open Scope num_scope.
Definition rectangular {B} (f : frame B) : Prop :=
  wf (fr_cols f) /\ forall c l, In (c, l) (fr_cols f) -> List.length l = List.length (fr_index f).
(** cell of a table; missing values count as 0 *)
Definition value (f : frame (option A)) (c : string) (i : nat) : A :=
  match dget (fr_cols f) c with
  | Some l => match nth_error l i with Some (Some x) => x | _ => #0 end
  | None => #0
  end.
Definition aerosol_column (c : string) : bool :=
  smem c ["SO2"; "SO4_IND"; "BC"; "OC"; "NOx"; "NMVOC"; "NH3"; "BMB_AEROS"] ||
  existsb (fun p => String.prefix p c) ["SO"; "BC"; "OC"; "BM"].
Definition agent_column (c : string) : bool := negb (smem c ["total"; "FORC_NH"; "FORC_SH"]).
(** sum of absolute values of row [i] over the columns of a kind *)
Definition magnitude (f : frame (option A)) (kind : string -> bool) (i : nat) : A :=
  nsum (map (fun c => nabs (value f c i)) (filter kind (dkeys (fr_cols f)))).
End Tables.
