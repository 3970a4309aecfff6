(** * Spec_Driver: what a run of the driver has to deliver, stated without the functions of M_Driver
      (only its data types are used). *)
From Verif Require Import PyBase Num M_Gas M_TwoLayer M_UDM M_Driver.

Section Spec.
Context {A : Type} {N : Num A}.
Local Open Scope num_scope.

(** [v] stands in column [col] on the first row labelled [y]. *)
Definition labelled (f : frame A) (col : string) (y : Z) (v : A) : Prop :=
  exists vs n, dget (fr_cols f) col = Some vs /\ nth_error (fr_index f) n = Some y /\
    (forall m, (m < n)%nat -> nth_error (fr_index f) m <> Some y) /\ nth_error vs n = Some v.

(** Hemispheric and total forcing and aerosol weight given by a forcing series for row [n] (year [y]):
    an array is indexed by position and is the same in both hemispheres, a table by year. *)
Definition given_forcing (rf : rf_data A) (y : Z) (n : nat) (fn fs tot w : A) : Prop :=
  match rf with
  | RfArray l => nth_error l n = Some tot /\ fn = tot /\ fs = tot /\ w = #0
  | RfFrame f =>
      labelled f "total" y tot /\ labelled f "FORC_NH" y fn /\ labelled f "FORC_SH" y fs /\
      match dget (fr_cols f) "w_aero" with
      | Some _ => labelled f "w_aero" y w
      | None => w = #0
      end
  end.

(** The thermal model's input and the reported total forcing in row [n] of a forcing run: given
    forcing plus solar forcing, volcanic series of the row. *)
Definition year_input (c : inst A) (rf : rf_data A) (n : nat) (i : tl_in A) (total : A) : Prop :=
  exists fn fs f w s vn vs,
    given_forcing rf (d_start c + Z.of_nat n)%Z n fn fs f w /\
    nth_error (d_sun c) n = Some s /\ nth_error (d_vn c) n = Some vn /\ nth_error (d_vs c) n = Some vs /\
    i = {| i_w := w; i_nh := fn + s; i_sh := fs + s; i_vn := vn; i_vs := vs |} /\ total = f + s.

(** A thermal model driven by the inputs of rows [n], [n+1], ...: returned values and total forcing *)
Inductive forced {T} (th : thermal A T) (c : inst A) (rf : rf_data A) : nat -> T -> list (dict A * A) -> Prop :=
| forced_nil n t : forced th c rf n t []
| forced_cons n t i f t' v tr : year_input c rf n i f -> t_year th t i = Ok (t', v) ->
    forced th c rf (S n) t' tr -> forced th c rf n t ((v, f) :: tr).

(** The names under which arrays are kept: those of the thermal model and four forcing series *)
Definition output_names (names : dict string) : list string :=
  dkeys names ++ ["Total_forcing"; "Solar_forcing"; "Volcanic_forcing_NH"; "Volcanic_forcing_SH"].
(** no two outputs share a name *)
Definition distinct_outputs (names : dict string) : Prop := NoDup (output_names names).

(** The entry of output [o] in row [n], when the thermal model returned [v] and the total forcing was [f] *)
Definition cell (names : dict string) (c : inst A) (o : string) (n : nat) (v : dict A) (f : A) : option A :=
  match dget names o with
  | Some name => dget v name
  | None =>
      if String.eqb o "Total_forcing" then Some f
      else if String.eqb o "Solar_forcing" then nth_error (d_sun c) n
      else if String.eqb o "Volcanic_forcing_NH" then option_map nmean (nth_error (d_vn c) n)
      else if String.eqb o "Volcanic_forcing_SH" then option_map nmean (nth_error (d_vs c) n)
      else None
  end.

(** [r] holds complete arrays for the years of [tr] *)
Definition complete (names : dict string) (c : inst A) (tr : list (dict A * A)) (r : results A) : Prop :=
  forall o, In o (output_names names) ->
  exists col, dget r o = Some (Arr col) /\ List.length col = List.length tr /\
    forall n v f, nth_error tr n = Some (v, f) -> nth_error col n = cell names c o n v f.

(** Given, solar and volcanic forcing are the same up to and including row [n]. *)
Definition same_inputs (c c' : inst A) (rf rf' : rf_data A) (n : nat) : Prop :=
  forall m, (m <= n)%nat ->
    (forall fn fs f w, given_forcing rf (d_start c + Z.of_nat m)%Z m fn fs f w <->
                       given_forcing rf' (d_start c' + Z.of_nat m)%Z m fn fs f w) /\
    nth_error (d_sun c) m = nth_error (d_sun c') m /\
    nth_error (d_vn c) m = nth_error (d_vn c') m /\ nth_error (d_vs c) m = nth_error (d_vs c') m.

(** A handler that also writes down the feedback argument of every call of [emi2conc]. *)
Definition log := list (Z * option (dict A)).
Definition logging {H} (emi2conc : H -> Z -> option (dict A) -> result H)
  (h : H * log) (y : Z) (fb : option (dict A)) : result (H * log) :=
  match emi2conc (fst h) y fb with Ok h' => Ok (h', snd h ++ [(y, fb)]) | Err e => Err e end.
Definition logging2 {H} (conc2forc : H -> Z -> A -> A -> result (H * (A * A * A * A)))
  (h : H * log) (y : Z) (luc sun : A) : result (H * log * (A * A * A * A)) :=
  match conc2forc (fst h) y luc sun with Ok (h', q) => Ok (h', snd h, q) | Err e => Err e end.
Definition logging3 {H} (add_results : H -> bool -> dict (list A) -> result (dict (frame A)))
  (h : H * log) := add_results (fst h).

(** The feedback arguments a run should use when the carbon cycle asks for the temperature only:
    none in the first year, last year's entry of the temperature array afterwards. *)
Definition lagged (start : Z) (temperature : list A) : log :=
  map (fun n => ((start + Z.of_nat n)%Z,
                 match n with O => None | S m => option_map (fun x => [("dtemp", x)]) (nth_error temperature m) end))
    (seq 0 (List.length temperature)).

(** the run was set up with a forcing series *)
Definition rf_run (c : inst A) : bool := match d_rf c with Some _ => true | None => false end.
(** Names of the columns of the result files *)
Definition file_columns (with_forcing : bool) : list string :=
  ["OHC700"; "OHCTOT"; "RIB_glob"; "RIB_N"; "RIB_S"; "dT_glob"; "dT_NH"; "dT_SH"; "dT_glob_air"; "dT_NH_air";
   "dT_SH_air"; "dT_glob_sea"; "dT_NH_sea"; "dT_SHsea"; "Solar_forcing"; "Volcanic_forcing_NH"; "Volcanic_forcing_SH"] ++
  if with_forcing then ["Total_forcing"] else [].
(** an array of that name exists *)
Definition has_array (r : results A) (k : string) : Prop := exists l, dget r k = Some (Arr l).
End Spec.
Arguments log A : clear implicits.

(** What each output of a forcing run is a function of: the thermal model's yearly output. *)
Section Columns.
Context {A : Type}.
Definition tl_columns : list (string * (tl_out A -> A)) :=
  [("RIB_glob", o_RIB); ("dT_glob", o_dtemp); ("OHC_MIXED", o_OHC_MIXED); ("OHC_DEEP", o_OHC_DEEP);
   ("OHC700", o_OHC700); ("OHCTOT", o_OHCTOT); ("dT_fast", o_fast); ("dT_slow", o_slow)].
Definition ud_columns : list (string * (ud_out A -> A)) :=
  [("RIB_glob", y_rib); ("RIB_N", y_ribn); ("RIB_S", y_ribs); ("dT_glob", y_dtemp); ("dT_NH", y_nh); ("dT_SH", y_sh);
   ("dT_glob_air", y_air); ("dT_NH_air", y_air_n); ("dT_SH_air", y_air_s);
   ("dT_glob_sea", y_sea); ("dT_NH_sea", y_sea_n); ("dT_SHsea", y_sea_s); ("OHCTOT", y_ohctot)].
End Columns.
