(** * Properties_Input: selection, reading and checks of input (C55-C59, C80) *)
From Coq Require Import Reals Permutation Ascii.
From Verif Require Import PyBase PyBaseFacts Num M_Utils M_Gas M_Driver M_Input Spec_Input P_Input P_Input2 P_Input3 P_Input4 P_Input5.

(** For the examples: a file system in which the paths beginning with "/d/" and the fallback for CH4 exist; a gas table
    with the names that every table must have and two gases. *)
Definition ix_exists (p : cval Q) : bool :=
  match p with CV (VStr s) => String.prefix "/d/" s || String.eqb s "/here/input_OTHER/NATEMIS/natemis_ch4.txt" | _ => false end.
Definition ix_row (e c : string) (n : Q) : gasrow Q := {| em_unit := e; conc_unit := c; nat_em := n |}.
Definition ix_gas : dict (gasrow Q) :=
  map (fun k => (k, ix_row "-" "-" 0%Q)) no_em ++ [("CH4", ix_row "Tg" "ppb" 200%Q); ("N2O", ix_row "Tg_N" "ppb" 11%Q)].
Definition ix_table (d : datum Q) : result (dict (gasrow Q)) := match d with Read MComponents _ => Ok ix_gas | _ => Err FileNotFoundError end.
Definition ix_header (p : cval Q) : result (dict string) :=
  match p with
  | CV (VStr "/d/em") => Ok [("CO2", "Pg_C"); ("CO2.1", "Pg_C"); ("CH4", "Tg"); ("N2O", "Tg_N")]
  | CV (VStr "/d/em_bad") => Ok [("CO2", "Pg_C"); ("CO2.1", "Pg_C"); ("CH4", "Gg"); ("N2O", "Tg_N")]
  | CV (VStr "/d/em_few") => Ok [("CO2", "Pg_C"); ("CO2.1", "Pg_C"); ("CH4", "Gg")]
  | CV (VStr "/d/conc") => Ok [("CH4", "ppb")]
  | _ => Ok [("CH4", "ppm")]
  end.
Definition ix_init := input_init ix_exists ix_table ix_header "/d" "/here".
Definition ix_get (cfg : dict pyval) (what : string) : result (datum Q) := do h <- ix_init cfg; get_data h what.
Definition ix_tag (d : result (datum Q)) : string + exn :=
  match d with
  | Ok (Read _ (CV (VStr s))) => inl s | Ok (Given (CV (VStr s))) => inl s
  | Ok (Given (CZeros _ _)) => inl "zeros" | Ok (Given (CFlat _ _ _)) => inl "flat" | Ok _ => inl "?" | Err e => inr e
  end.

(** ** C55 *)
(** Of a handler that could be constructed, each input comes from exactly the source named by [source], or it is a
    KeyError exactly if there is no source. *)
Theorem C55_sources : forall A exists_ gas_table header dir cwd cfg (h : hcfg A), wf cfg ->
  input_init exists_ gas_table header dir cwd cfg = Ok h ->
  forall what m, dget (spec_methods cfg) what = Some m ->
  (forall d, get_data h what = Ok d <-> source exists_ gas_table dir cwd cfg what m d) /\
  (forall e, get_data h what = Err e <-> e = KeyError what /\ no_source cfg what).
Proof. intros A ex gt hd dir cwd cfg h W OK. exact (c55_sources ex gt hd dir cwd cfg W h OK). Qed.
Print Assumptions C55_sources.
(** Other names have no data, and other keys have no effect. In particular rf_volc_file and rf_volc_data are ignored. *)
Theorem C55_other_names : forall A exists_ gas_table header dir cwd cfg (h : hcfg A), wf cfg ->
  input_init exists_ gas_table header dir cwd cfg = Ok h -> forall what, dget (spec_methods cfg) what = None -> get_data h what = Err (KeyError what).
Proof. intros A ex gt hd dir cwd cfg h W OK. exact (c55_unknown ex gt hd dir cwd cfg W h OK). Qed.
Print Assumptions C55_other_names.
Theorem C55_other_keys : forall A exists_ gas_table header dir cwd cfg, wf cfg ->
  @input_init A exists_ gas_table header dir cwd (filter (fun kv => known_key (fst kv)) cfg) = input_init exists_ gas_table header dir cwd cfg.
Proof. exact @c55_known_only. Qed.
Print Assumptions C55_other_keys.
Theorem C55_volcanoes_ignored : forall A exists_ gas_table header dir cwd cfg, wf cfg ->
  @input_init A exists_ gas_table header dir cwd (ddel (ddel cfg "rf_volc_file") "rf_volc_data") = input_init exists_ gas_table header dir cwd cfg.
Proof. exact @c55_volc. Qed.
Print Assumptions C55_volcanoes_ignored.
(** With sunvolc = 1, giving one hemisphere only leaves the other without data. *)
Theorem C55_one_hemisphere : forall A exists_ gas_table header dir cwd cfg (h : hcfg A) one other, wf cfg ->
  input_init exists_ gas_table header dir cwd cfg = Ok h -> sunvolc_on cfg = true ->
  (one, other) = ("rf_volc_n", "rf_volc_s") \/ (one, other) = ("rf_volc_s", "rf_volc_n") ->
  given cfg one = true -> given cfg other = false -> get_data h other = Err (KeyError other).
Proof. intros A ex gt hd dir cwd cfg h one other W OK. exact (c55_one ex gt hd dir cwd cfg W h OK one other). Qed.
Print Assumptions C55_one_hemisphere.
(** Without sunvolc = 1, data objects are replaced by zeros; a file is still used. *)
Theorem C55_switched_off : forall A exists_ gas_table header dir cwd cfg (h : hcfg A) what, wf cfg ->
  input_init exists_ gas_table header dir cwd cfg = Ok h -> sunvolc_on cfg = false -> In what ["rf_sun"; "rf_volc_n"; "rf_volc_s"] ->
  match dget cfg (what ++ "_file") with
  | Some p => get_data h what = Ok (Read (MYearRow (number cfg "nystart" 1750) (number cfg "nyend" 2100)) (CV p))
  | None => exists years, run_years_of cfg years /\ get_data h what = Ok (Given (CZeros years (if String.eqb what "rf_sun" then 1 else 12)))
  end.
Proof. intros A ex gt hd dir cwd cfg h what W OK. exact (c55_off ex gt hd dir cwd cfg W h OK what). Qed.
Print Assumptions C55_switched_off.
Example C55_example :
  let off := [("rf_sun_data", VStr "mine"); ("rf_volc_n_file", VStr "/d/volc"); ("forc_file", VStr "/d/forc"); ("forc_data", VStr "lost"); ("nystart", VInt 1900)] in
  let on := dset off "sunvolc" (VInt 1) in
  let bare := [("sunvolc", VBool true); ("rf_volc_file", VStr "/d/mine"); ("gaspam_file", VStr "/d/gas"); ("nat_n2o_data", VStr "n2o")] in
  map (fun what => ix_tag (ix_get off what)) ["rf_sun"; "rf_volc_n"; "rf_volc_s"; "rf_luc"; "forc"; "emissions"] =
    [inl "zeros"; inl "/d/volc"; inl "zeros"; inl "/d/IPCC_LUCalbedo.txt"; inl "/d/forc"; inr (KeyError "emissions")] /\
  map (fun what => ix_tag (ix_get on what)) ["rf_sun"; "rf_volc_n"; "rf_volc_s"] = [inl "mine"; inl "/d/volc"; inr (KeyError "rf_volc_s")] /\
  map (fun what => ix_tag (ix_get bare what)) ["rf_sun"; "rf_volc_n"; "rf_volc_s"; "nat_ch4"; "nat_n2o"] =
    [inl "/d/solar_IPCC.txt"; inl "/d/meanVOLCmnd_ipcc_NH.txt"; inl "/d/meanVOLCmnd_ipcc_NH.txt"; inl "flat"; inl "n2o"] /\
  ix_get bare "nat_ch4" = Ok (Given (CFlat (zrange 1750 351) "CH4" 200%Q)).
Proof. vm_compute. repeat split. Qed.

(** ** C56 *)
(** The rows read, and when there are enough of them. *)
Theorem C56_rows : forall R (first last : Z) (rows : list R), (first <= last)%Z ->
  let offset := Z.to_nat (Z.max first 1750 - 1750) in
  (forall r, read_data_on_year_row first last rows = Ok r <->
     (offset + Z.to_nat (last - first) < List.length rows)%nat /\ List.length r = Z.to_nat (last - first + 1) /\
     forall i, (i < List.length r)%nat -> nth_error r i = nth_error rows (offset + i)) /\
  (forall e, read_data_on_year_row first last rows = Err e -> e = ValueError).
Proof. exact @c56_rows. Qed.
Print Assumptions C56_rows.
(** A file with the rows of the years from 1750 on: the rows read are those of the run's years if the run starts in 1750
    or later; otherwise they start with 1750 and belong to years that are 1750 - first too late. *)
Theorem C56_years : forall R (of_year : Z -> R) (n : nat) (first last : Z) r, (first <= last)%Z ->
  read_data_on_year_row first last (map of_year (zrange 1750 n)) = Ok r ->
  r = map of_year (zrange (Z.max first 1750) (Z.to_nat (last - first + 1))) /\
  (forall i, (i < List.length r)%nat -> nth_error r i = Some (of_year (first + Z.of_nat i + Z.max 0 (1750 - first))%Z)).
Proof. exact @c56_years. Qed.
Print Assumptions C56_years.
(** The default files have 751 rows, to 2500: a later year cannot be read. *)
Theorem C56_after_2500 : forall R (rows : list R) (first last : Z), List.length rows = 751 -> (1750 <= first <= last)%Z ->
  (exists r, read_data_on_year_row first last rows = Ok r) <-> (last <= 2500)%Z.
Proof. exact @c56_751. Qed.
Print Assumptions C56_after_2500.
Example C56_example : let rows := zrange 1750 10 in
  read_data_on_year_row 1752 1755 rows = Ok [1752; 1753; 1754; 1755]%Z /\
  read_data_on_year_row 1748 1750 rows = Ok [1750; 1751; 1752]%Z /\
  read_data_on_year_row 1752 1760 rows = Err ValueError /\ read_data_on_year_row 1790 1791 rows = Err ValueError /\
  read_data_on_year_row 1748 1757 rows = Ok rows.
Proof. vm_compute. repeat split. Qed.

(** ** C57 *)
(** Without totals, all three are the row sums over all columns, whatever they are: a supplied aerosol weight or one
    hemisphere is added up as well. *)
Theorem C57_row_sum : forall f : frame (option R), wf (fr_cols f) ->
  dmem (fr_cols f) "total" = false -> dmem (fr_cols f) "FORC_NH" && dmem (fr_cols f) "FORC_SH" = false ->
  forall c, In c ["total"; "FORC_NH"; "FORC_SH"] -> exists col, dget (fr_cols (read_forc_table f)) c = Some col /\ List.length col = List.length (fr_index f) /\
    forall i, (i < List.length (fr_index f))%nat -> nth_error col i = Some (Some (nsum (map (fun k => value f k i) (dkeys (fr_cols f))))).
Proof. exact c57_row_sum. Qed.
Print Assumptions C57_row_sum.
(** With both hemispheres but no total, the total is undefined in every year. *)
Theorem C57_hemispheres : forall f : frame (option R), wf (fr_cols f) ->
  dmem (fr_cols f) "total" = false -> dmem (fr_cols f) "FORC_NH" = true -> dmem (fr_cols f) "FORC_SH" = true ->
  dget (fr_cols (read_forc_table f)) "total" = Some (map (fun _ => None) (fr_index f)) /\
  dget (fr_cols (read_forc_table f)) "FORC_NH" = dget (fr_cols f) "FORC_NH" /\ dget (fr_cols (read_forc_table f)) "FORC_SH" = dget (fr_cols f) "FORC_SH".
Proof. exact c57_hemispheres. Qed.
Print Assumptions C57_hemispheres.
(** Every other column is kept, and with a total all columns are. *)
Theorem C57_kept : forall (f : frame (option R)) c, wf (fr_cols f) -> c <> "w_aero" ->
  dmem (fr_cols f) "total" = true \/ ~ In c ["total"; "FORC_NH"; "FORC_SH"] ->
  fr_index (read_forc_table f) = fr_index f /\ dget (fr_cols (read_forc_table f)) c = dget (fr_cols f) c.
Proof. intros f c W N H. exact (conj (proj1 (read_forc_get f W)) (c57_kept f c W N H)). Qed.
Print Assumptions C57_kept.
(** The aerosol weight: a supplied one is kept, there is none without an aerosol column, otherwise it is the share of the
    aerosol columns in the sum of absolute values. *)
Theorem C57_weight : forall f : frame (option R), wf (fr_cols f) ->
  (dmem (fr_cols f) "w_aero" = true -> dget (fr_cols (read_forc_table f)) "w_aero" = dget (fr_cols f) "w_aero") /\
  (dmem (fr_cols f) "w_aero" = false -> (forall c, In c (dkeys (fr_cols f)) -> aerosol_column c = false) -> dget (fr_cols (read_forc_table f)) "w_aero" = None) /\
  (dmem (fr_cols f) "w_aero" = false -> (exists c, In c (dkeys (fr_cols f)) /\ aerosol_column c = true) ->
     exists col, dget (fr_cols (read_forc_table f)) "w_aero" = Some col /\ List.length col = List.length (fr_index f) /\
     forall i, (i < List.length (fr_index f))%nat -> exists w : R, nth_error col i = Some (Some w) /\ (0 <= w <= 1)%R /\
       (w * magnitude f agent_column i = magnitude f aerosol_column i)%R /\ (magnitude f agent_column i = 0%R -> w = 0%R)).
Proof. exact c57_weight. Qed.
Print Assumptions C57_weight.
(** The order of the columns does not matter. *)
Theorem C57_column_order : forall f f' : frame (option R), wf (fr_cols f) -> Permutation (fr_cols f) (fr_cols f') -> fr_index f = fr_index f' ->
  forall c, dget (fr_cols (read_forc_table f)) c = dget (fr_cols (read_forc_table f')) c.
Proof. exact c57_order. Qed.
Print Assumptions C57_column_order.
(** A table with a total but without hemispheres is read, and stops the first year of the run. *)
Theorem C57_total_alone : forall (f : frame (option R)) (g : frame R) yr row t, wf (fr_cols f) ->
  dmem (fr_cols f) "total" = true -> dmem (fr_cols f) "FORC_NH" = false ->
  (forall c, dmem (fr_cols g) c = dmem (fr_cols (read_forc_table f)) c) -> fr_get g "total" yr = Ok t ->
  rf_row (RfFrame g) yr row = Err (KeyError "FORC_NH").
Proof. exact c57_total_alone. Qed.
Print Assumptions C57_total_alone.
(** years 2000, 2001; "SOLAR" counts as an aerosol, since its name begins with SO *)
Definition ix_forc (cols : dict (list (option Q))) : dict (list (option Q)) :=
  fr_cols (read_forc_table (N := QNum) {| fr_index := [2000; 2001]%Z; fr_cols := cols |}).
(** A file has components if its first line begins with "year" in any mixture of cases. *)
Theorem C57_first_line : forall line, is_component_file line = true <->
  exists y e a r rest, line = String y (String e (String a (String r rest))) /\
    (y = "y" \/ y = "Y")%char /\ (e = "e" \/ e = "E")%char /\ (a = "a" \/ a = "A")%char /\ (r = "r" \/ r = "R")%char.
Proof. exact c57_first_line. Qed.
Print Assumptions C57_first_line.
Example C57_example :
  map (fun kv => (fst kv, map (option_map Qred) (snd kv))) (ix_forc [("CO2", [Some 3; Some 0]%Q); ("SO2", [Some (-1); Some 0]%Q); ("BC", [None; Some 0]%Q)]) =
    [("CO2", [Some 3; Some 0]%Q); ("SO2", [Some (-1); Some 0]%Q); ("BC", [None; Some 0]%Q);
     ("total", [Some 2; Some 0]%Q); ("FORC_NH", [Some 2; Some 0]%Q); ("FORC_SH", [Some 2; Some 0]%Q); ("w_aero", [Some (1 / 4); Some 0]%Q)] /\
  dget (ix_forc [("FORC_NH", [Some 1; Some 2]%Q); ("FORC_SH", [Some 3; Some 4]%Q)]) "total" = Some [None; None] /\
  option_map (map (option_map Qred)) (dget (ix_forc [("SOLAR", [Some 1; Some 2]%Q); ("CO2", [Some 1; Some 0]%Q)]) "w_aero") = Some [Some (1 / 2)%Q; Some 1%Q] /\
  option_map (map (option_map Qred)) (dget (ix_forc [("w_aero", [Some (1 / 2); Some (1 / 4)]%Q); ("CO2", [Some 1; Some 0]%Q)]) "total") = Some [Some (3 / 2)%Q; Some (1 / 4)%Q] /\
  dmem (ix_forc [("total", [Some 1; Some 2]%Q)]) "FORC_NH" = false /\
  is_component_file "Year,CO2" = true /\ is_component_file "0.1" = false.
Proof. vm_compute. repeat split. Qed.

(** ** C58 *)
(** A table by ascending years is cut to the years wanted; it is a KeyError if a year to be cut away is not there. *)
Theorem C58_cut : forall R (first last : Z) (df : list (Z * R)) row rest, df = row :: rest -> ascending (map fst df) ->
  let present y := In y (map fst df) in
  (forall r, cut_years first last df = Ok r <->
     (forall y, (fst row <= y < first)%Z \/ (last < y <= List.last (map fst df) 0%Z)%Z -> present y) /\
     r = filter (fun row => ((first <=? fst row) && (fst row <=? last))%Z) df) /\
  (forall e, cut_years first last df = Err e -> e = KeyError "year").
Proof. exact @c58_cut. Qed.
Print Assumptions C58_cut.
(** With consecutive years this can go wrong only if the years wanted lie apart from the table's. *)
Theorem C58_consecutive : forall R (y0 : Z) (rows : list R) (first last : Z), rows <> [] ->
  let df := combine (zrange y0 (List.length rows)) rows in
  (exists r, cut_years first last df = Ok r) <-> (first <= y0 + Z.of_nat (List.length rows))%Z /\ (y0 - 1 <= last)%Z.
Proof. exact @c58_consecutive. Qed.
Print Assumptions C58_consecutive.
(** In emission files the first column CO2 becomes the fossil, the second the land-use emissions; others keep their name. *)
Theorem C58_columns : forall V (cols : dict V), dget cols "CO2_FF" = None -> dget cols "CO2_AFOLU" = None ->
  dget (rename_columns cols) "CO2_FF" = dget cols "CO2" /\ dget (rename_columns cols) "CO2_AFOLU" = dget cols "CO2.1" /\
  dget (rename_columns cols) "CO2" = None /\ dget (rename_columns cols) "CO2.1" = None /\
  forall c, ~ In c ["CO2"; "CO2.1"; "CO2_FF"; "CO2_AFOLU"] -> dget (rename_columns cols) c = dget cols c.
Proof. exact @c58_columns. Qed.
Print Assumptions C58_columns.
(** A configured file that does not exist stops the construction, except for natural emissions: see [file_read] in C55. *)
Theorem C58_missing_file : forall A exists_ gas_table header dir cwd cfg, wf cfg -> forall what p,
  In what ["forc"; "gaspam"; "concentrations"; "emissions"; "perturb_em"; "perturb_forc"; "rf_luc"; "rf_sun"; "rf_volc_n"; "rf_volc_s"] ->
  dget cfg (what ++ "_file") = Some p -> exists_ (CV p) = false ->
  (forall h : hcfg A, input_init exists_ gas_table header dir cwd cfg <> Ok h) /\
  (forall years, run_years_of cfg years -> given cfg "gaspam" = false \/ (given cfg "nat_ch4" = true /\ given cfg "nat_n2o" = true) ->
   input_init exists_ gas_table header dir cwd cfg = Err FileNotFoundError).
Proof. intros A ex gt hd dir cwd cfg W what p I P EX. exact (conj (c58_missing ex gt hd dir cwd cfg W what p I P EX) (fun years => c58_error ex gt hd dir cwd cfg W what p years I P EX)). Qed.
Print Assumptions C58_missing_file.
Example C58_example : let df := [(1998, "a"); (1999, "b"); (2000, "c"); (2001, "d"); (2002, "e")]%Z in
  cut_years 1999 2001 df = Ok [(1999, "b"); (2000, "c"); (2001, "d")]%Z /\ cut_years 1750 1999 df = Ok [(1998, "a"); (1999, "b")]%Z /\
  cut_years 2010 2011 df = Err (KeyError "year") /\ cut_years 2001 2005 [(1998, "a"); (2001, "b")]%Z = Err (KeyError "year") /\
  rename_columns [("CO2", 1); ("CO2.1", 2); ("CH4", 3)] = [("CO2_FF", 1); ("CO2_AFOLU", 2); ("CH4", 3)] /\
  ix_tag (ix_get [("forc_file", VStr "/x/forc")] "rf_luc") = inr FileNotFoundError /\
  ix_tag (ix_get [("nat_ch4_file", VStr "/x/ch4")] "nat_ch4") = inl "/here/input_OTHER/NATEMIS/natemis_ch4.txt".
Proof. vm_compute. repeat split. Qed.

(** ** C59 *)
(** If a gas is missing from the emission file, nothing is checked, neither emissions nor concentrations. Otherwise it is a
    ValueError exactly if a unit differs. *)
Theorem C59_units : forall A (gas_table : datum A -> result (dict (gasrow A))) header (h : hcfg A) d g eh ch,
  optional_pam h "gaspam" = true -> get_data h "gaspam" = Ok d -> gas_table d = Ok g -> wf g ->
  (forall k, In k no_em -> dmem g k = true) ->
  header_of header h "emissions_file" eh -> header_of header h "concentrations_file" ch -> (forall hd, eh = Some hd -> wf hd /\ dmem hd "CO2.1" = true) ->
  let missing := exists hd k r, eh = Some hd /\ checked g k r /\ (k = "CO2.1" \/ dget hd k = None) in
  let em_bad := exists hd k r u, eh = Some hd /\ checked g k r /\ dget hd k = Some u /\ u <> em_unit r in
  let conc_bad := exists hd k r u, ch = Some hd /\ checked g k r /\ dget hd k = Some u /\ u <> conc_unit r in
  (missing -> check_gaspam gas_table header h = Ok tt) /\
  (~ missing -> (check_gaspam gas_table header h = Err ValueError /\ (em_bad \/ conc_bad)) \/ (check_gaspam gas_table header h = Ok tt /\ ~ em_bad /\ ~ conc_bad)).
Proof. exact @c59_check. Qed.
Print Assumptions C59_units.
(** The check is part of the construction. *)
Theorem C59_construction : forall A exists_ gas_table header dir cwd cfg (h : hcfg A),
  input_init exists_ gas_table header dir cwd cfg = Ok h -> check_gaspam gas_table header h = Ok tt.
Proof. exact @c59_init. Qed.
Print Assumptions C59_construction.
(** A gas table without one of the names that have no emissions is a KeyError. *)
Theorem C59_needed_names : forall A (gas_table : datum A -> result (dict (gasrow A))) header (h : hcfg A) d g k,
  optional_pam h "gaspam" = true -> get_data h "gaspam" = Ok d -> gas_table d = Ok g ->
  In k no_em -> dmem g k = false -> exists k', In k' no_em /\ dmem g k' = false /\ check_gaspam gas_table header h = Err (KeyError k').
Proof. exact @c59_key. Qed.
Print Assumptions C59_needed_names.
Example C59_example :
  let run em conc := match ix_init [("gaspam_file", VStr "/d/gas"); ("emissions_file", VStr em); ("concentrations_file", VStr conc)] with Ok _ => None | Err e => Some e end in
  run "/d/em" "/d/conc" = None /\ run "/d/em_bad" "/d/conc" = Some ValueError /\ run "/d/em" "/d/conc_bad" = Some ValueError /\
  run "/d/em_few" "/d/conc_bad" = None.
Proof. vm_compute. repeat split. Qed.

(** ** C80 *)
(** A file of natural emissions must have one value for each of the years 1750-2500. *)
Theorem C80_file : forall A (values : list A) c,
  (forall f, read_natural_emissions values c 1750 2500 = Ok f <-> List.length values = 751 /\ f = {| fr_index := zrange 1750 751; fr_cols := [(c, values)] |}) /\
  (forall e, read_natural_emissions values c 1750 2500 = Err e -> e = ValueError).
Proof. exact @c80_read. Qed.
Print Assumptions C80_file.
Theorem C80_years : forall A (values : list A) c f i, read_natural_emissions values c 1750 2500 = Ok f -> (i < 751)%nat ->
  exists x, nth_error values i = Some x /\ fr_get f c (1750 + Z.of_nat i) = Ok x.
Proof. exact @c80_year. Qed.
Print Assumptions C80_years.
(** With neither file nor data, the gas table's constant is used for every year of the run. *)
Theorem C80_constant : forall A exists_ gas_table header dir cwd cfg (h : hcfg A) c C d, wf cfg ->
  input_init exists_ gas_table header dir cwd cfg = Ok h -> (c, C) = ("nat_ch4", "CH4") \/ (c, C) = ("nat_n2o", "N2O") ->
  given cfg c = false -> given cfg "gaspam" = true ->
  get_data h c = Ok d -> exists dg g r years, get_data h "gaspam" = Ok dg /\ gas_table dg = Ok g /\ dget g C = Some r /\ run_years_of cfg years /\
    d = Given (CFlat years C (nat_em r)).
Proof. intros A ex gt hd dir cwd cfg h c C d W OK. exact (c80_flat ex gt hd dir cwd cfg W h OK c C d). Qed.
Print Assumptions C80_constant.
Example C80_example : let values := map inject_Z (zrange 1750 751) in
  (do f <- read_natural_emissions values "CH4" 1750 2500; fr_get f "CH4" 1803) = Ok 1803%Q /\
  read_natural_emissions (tl values) "CH4" 1750 2500 = Err ValueError /\
  ix_get [("gaspam_file", VStr "/d/gas"); ("nystart", VInt 1998); ("nyend", VInt 2000)] "nat_n2o" = Ok (Given (CFlat [1998; 1999; 2000]%Z "N2O" 11%Q)).
Proof. vm_compute. repeat split. Qed.
