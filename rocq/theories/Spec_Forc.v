(** * Spec_Forc: vocabulary for statements about forcing *)
From Coq Require Import Reals Qreals.
From Verif Require Import PyBase Num M_Gas M_Forcing Spec_Gas.
Open Scope R_scope.

Definition TOTAL : string := "Total_forcing".

(** The forcing table: value of component [k] in row [i] (0 where there is none). *)
Definition forc_at (f : dict (list R)) (k : string) (i : nat) : R :=
  match dget f k with Some v => nth i v 0 | None => 0 end.
Fixpoint sum_over (g : string -> R) (l : list string) : R :=
  match l with [] => 0 | k :: r => g k + sum_over g r end.
Definition components (f : dict (list R)) : list string := filter (fun k => negb (String.eqb k TOTAL)) (dkeys f).
(** Cell of a frame (0 where there is none). *)
Definition cell (fr : frame R) (k : string) (y : Z) : R := match fr_get fr k y with Ok v => v | Err _ => 0 end.

(** All forcings reported for row [i], year [y]: the computed components and the precalculated columns. *)
Definition reported_sum (f : dict (list R)) (erf : frame R) (i : nat) (y : Z) : R :=
  sum_over (fun k => forc_at f k i) (components f) + sum_over (fun k => cell erf k y) (dkeys (fr_cols erf)).

(** Sum of the perturbations that the table [pt] has for component [k] in year [y]. *)
Fixpoint pert_sum (pt : ptable R) (y : Z) (k : string) : R :=
  match pt with
  | [] => 0
  | (y', k', v) :: r => (if (Z.eqb y' y && String.eqb k' k)%bool then v else 0) + pert_sum r y k
  end.
(** The last of them. *)
Fixpoint pert_last (pt : ptable R) (y : Z) (k : string) : option R :=
  match pt with
  | [] => None
  | (y', k', v) :: r =>
      match pert_last r y k with
      | Some w => Some w
      | None => if (Z.eqb y' y && String.eqb k' k)%bool then Some v else None
      end
  end.

(** Every forcing series has one entry per year. *)
Definition series_ok (p : hpam R) (f : dict (list R)) : Prop :=
  wf f /\ forall k v, dget f k = Some v -> List.length v = List.length (years_of p).

(** A run over consecutive years: feedback input, land-use and solar forcing of each year. *)
Section Run.
Variables (S Fb : Type) (co2em2conc : S -> Z -> R -> Fb -> S * R).
Variables (p : hpam R) (conc_in emis nat_ch4 nat_n2o erf : frame R) (pert : option (ptable R)).
Fixpoint handler_run (y : Z) (ins : list (Fb * R * R)) (cc : S) (st : hst R) {struct ins}
  : result (list (R * R * R * R) * hst R) :=
  match ins with
  | [] => Ok ([], st)
  | (fb, luc, sun) :: r =>
      do o <- handler_year S Fb co2em2conc p conc_in emis nat_ch4 nat_n2o erf pert y fb luc sun cc st;
      do rest <- handler_run (y + 1)%Z r (fst (snd o)) (snd (snd o));
      Ok (fst o :: fst rest, snd rest)
  end.
End Run.

Definition pert_rows {A} (pert : option (ptable A)) : ptable A := match pert with Some pt => pt | None => [] end.

(** Share of a component's forcing that goes to the northern hemisphere, relative to the mean. *)
Definition north_share (k : string) : R :=
  if smem k ["SO2"; "SO4_IND"; "BC"; "OC"; "BMB_AEROS"; "BMB_AEROS_OC"; "BMB_AEROS_BC"] then 147 / 100
  else if String.eqb k "TROP_O3" then 145 / 100 else if String.eqb k "LANDUSE" then 142 / 100 else 1.

(** Years in which the emissions up to and including [y] are the same. *)
Definition same_until (e e' : frame R) (y : Z) : Prop :=
  fr_index e' = fr_index e /\ dkeys (fr_cols e') = dkeys (fr_cols e) /\
  forall k y', (y' <= y)%Z -> fr_get e' k y' = fr_get e k y'.

(** Change of the emissions of [t] since the first year, as used for aerosol forcing. *)
Definition em_change (emis : frame R) (t : string) (y0 y : Z) (d : R) : Prop :=
  exists e e0, fr_get emis t y = Ok e /\ fr_get emis t y0 = Ok e0 /\ d = e - e0.

(** Emission perturbation rows with the name of the column they apply to. *)
Definition on_columns (has_co2 : bool) (rows : ptable R) : ptable R :=
  map (fun r => (fst (fst r), if (String.eqb (snd (fst r)) "CO2" && negb has_co2)%bool then "CO2_FF" else snd (fst r), snd r)) rows.
(** Every column has one entry per label. *)
Definition complete (fr : frame R) : Prop := forall k v, dget (fr_cols fr) k = Some v -> List.length v = List.length (fr_index fr).

(** The numeric factors that the handler takes from its parameter dictionary. *)
Definition reads (d : dict pyval) (p : hpam R) : Prop :=
  forall q x, In (q, x) [("qdirso2", qdirso2 p); ("qbc", qbc p); ("qoc", qoc p); ("qindso2", qindso2 p)] ->
  forall v f, dget d q = Some v -> num_of v = Some (FFin f) -> x = Q2R f.

(** Radiative forcing of the three main gases after Etminan et al. (2016), table 1, with the values used here. *)
Definition etminan_co2 (c0 c n0 n : R) : R :=
  (- 24 / 10 ^ 8 * (c - c0) ^ 2 + 72 / 10 ^ 5 * Rabs (c - c0) - 21 / 10 ^ 5 * ((n0 + n) / 2) + 536 / 100) * ln (c / c0).
Definition etminan_n2o (c0 c n0 n m0 m : R) : R :=
  (- 8 / 10 ^ 6 * ((c + c0) / 2) + 42 / 10 ^ 7 * ((n + n0) / 2) - 49 / 10 ^ 7 * ((m + m0) / 2) + 117 / 1000) * (sqrt n - sqrt n0).
Definition etminan_ch4 (n0 n m0 m : R) : R :=
  (- 13 / 10 ^ 7 * ((m + m0) / 2) - 82 / 10 ^ 7 * ((n + n0) / 2) + 43 / 1000) * (sqrt m - sqrt m0).

(** Components whose forcing follows emissions. *)
Definition aerosol_like (k : string) : Prop :=
  In k ["NMVOC"; "NH3"; "NOx"] \/ exists s, In s ["BC"; "OC"; "SO"; "BM"] /\ String.prefix s k = true.
(** Emission column and factor of the components without an efficiency in the gas table. *)
Definition factor_of (p : hpam R) (k : string) : option (string * R) :=
  dget [("SO2", ("SO2", qdirso2 p)); ("SO4_IND", ("SO2", qindso2 p)); ("OC", ("OC", qoc p)); ("BC", ("BC", qbc p));
        ("BMB_AEROS", ("BMB_AEROS_OC", qbmb p)); ("NMVOC", ("NMVOC", qnmvoc p)); ("NH3", ("NH3", qnh3 p)); ("NOx", ("NOx", qnox p))] k.

(** What the forcing of component [k] in year [y] must be; [v] is read against the gas table, the concentrations and
    the emissions; tropospheric ozone has its own statement (C42). *)
Definition component_value (p : hpam R) (emis : frame R) (gt : dict (gas R)) (conc : string -> Z -> R -> Prop) (ch4 luc : R)
    (y : Z) (k : string) (v : R) : Prop :=
  (k = "LANDUSE" -> v = luc) /\
  (aerosol_like k -> exists g, dget gt k = Some g /\
     (g_alpha g <> 0 -> exists d, em_change emis k (nystart p) y d /\ v = d * g_alpha g) /\
     (g_alpha g = 0 -> (factor_of p k = None -> v = 0) /\
        forall e f, factor_of p k = Some (e, f) -> exists d, em_change emis e (nystart p) y d /\ v = f * d)) /\
  (k <> "LANDUSE" -> ~ aerosol_like k -> forall g, dget gt k = Some g -> g_alpha g <> 0 ->
     exists c c0, conc k y c /\ conc k (nystart p) c0 /\ v = (c - c0) * g_alpha g * g_sarf g) /\
  (forall g, k = "STRAT_H2O" -> dget gt k = Some g -> g_alpha g = 0 -> v = qh2o_ch4 p * ch4 * g_sarf g).
