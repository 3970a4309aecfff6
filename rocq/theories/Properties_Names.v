(** * Properties_Names: chlorine and bromine from names, regional rows (C60, C61, C81) *)
From Coq Require Import Ascii.
From Verif Require Import PyBase PyBaseFacts Num M_Utils M_Gas M_Names Spec_Names P_Names P_Names2.

(** ** C60 *)
(** For every molecule whose number has one digit per element, the name "...-number", with or without an isomer letter,
    gives its number of chlorine atoms. *)
Theorem C60_rule_of_90 : forall family m letter, balanced m -> one_digit m ->
  (letter = ""%string \/ exists a, letter = String a "" /\ ~ is_digit a /\ a <> "-"%char) ->
  find_num_cl_in_hcfc (family ++ "-" ++ printed (number m) ++ letter) = Ok (Z.of_nat (chlorine m)).
Proof. exact c60_count. Qed.
Print Assumptions C60_rule_of_90.
(** Isomers with two letters, such as HCFC-225ca, cannot be read. *)
Theorem C60_two_letters_refuted : forall family n a b, ~ is_digit a -> ~ is_digit b -> a <> "-"%char -> b <> "-"%char -> space a = false ->
  find_num_cl_in_hcfc (family ++ "-" ++ printed n ++ String a (String b "")) = Err ValueError.
Proof. exact c60_two_letters. Qed.
Print Assumptions C60_two_letters_refuted.
(** An underscore between the digits of the number changes nothing. *)
Theorem C60_underscore : forall family a b,
  find_num_cl_in_hcfc (family ++ "-" ++ printed a ++ "_" ++ printed b) = find_num_cl_in_hcfc (family ++ "-" ++ printed a ++ printed b).
Proof. exact c60_underscore. Qed.
Print Assumptions C60_underscore.
(** CFC-113 is C2F3Cl3, HCFC-141b C2H3FCl2, HCFC-1122 (one double bond) C2HF2Cl *)
Example C60_example :
  let cfc113 := {| carbon := 2; hydrogen := 0; fluorine := 3; chlorine := 3; double_bonds := 0 |} in
  let hcfc1122 := {| carbon := 2; hydrogen := 1; fluorine := 2; chlorine := 1; double_bonds := 1 |} in
  balanced cfc113 /\ number cfc113 = 113 /\ balanced hcfc1122 /\ number hcfc1122 = 1122 /\
  map find_num_cl_in_hcfc ["CFC-11"; "CFC-113"; "CFC-1_13"; "HCFC-141b"; "HCFC-1122"; "HCFC-22"] = [Ok 3; Ok 3; Ok 3; Ok 2; Ok 1; Ok 1]%Z /\
  map find_num_cl_in_hcfc ["HCFC-225ca"; "CFC-"; "CFC-C318"] = [Err ValueError; Err IndexError; Err ValueError].
Proof. vm_compute. repeat split. Qed.

(** ** C61 *)
(** The dictionaries are made exactly if all names can be read; then they have exactly the entries of the list's names. *)
Theorem C61_dictionaries : forall gases,
  ((exists d, make_cl_and_br_dictionaries gases = Ok d) <-> forall t, In t gases -> readable t) /\
  (forall cl br, make_cl_and_br_dictionaries gases = Ok (cl, br) ->
    (forall t n, dget cl t = Some n <-> In t gases /\ chlorine_entry t n) /\ (forall t n, dget br t = Some n <-> In t gases /\ bromine_entry t n)).
Proof. exact c61_dictionaries. Qed.
Print Assumptions C61_dictionaries.
(** A name belongs to at most one family. *)
Theorem C61_families : forall t,
  ~ (freon t /\ halon t) /\ ~ (freon t /\ chloride t) /\ ~ (freon t /\ bromide t) /\ ~ (halon t /\ chloride t) /\ ~ (halon t /\ bromide t) /\ ~ (chloride t /\ bromide t).
Proof. exact c61_families. Qed.
Print Assumptions C61_families.
(** A plain formula with chlorine has no bromine entry, whatever it contains; a name without marker has no entry. *)
Theorem C61_plain_formula : forall gases cl br t, make_cl_and_br_dictionaries gases = Ok (cl, br) -> ~ freon t -> ~ halon t ->
  (occurs "Cl" t -> dget br t = None) /\ (~ occurs "Cl" t -> ~ occurs "Br" t -> dget cl t = None /\ dget br t = None).
Proof. exact c61_formula. Qed.
Print Assumptions C61_plain_formula.
(** CH2BrCl loses its bromine; of CH2ClCH2Cl only the last chlorine is counted. *)
Example C61_example :
  make_cl_and_br_dictionaries ["CO2"; "CFC-12"; "H-1211"; "H-1301"; "CCl4"; "CH3Br"; "CH2Br2"; "CH2BrCl"; "CH2ClCH2Cl"; "HFC-134a"] =
    Ok ([("CFC-12", 2); ("H-1211", 1); ("CCl4", 4); ("CH2BrCl", 1); ("CH2ClCH2Cl", 1)],
        [("H-1211", 1); ("H-1301", 1); ("CH3Br", 1); ("CH2Br2", 2)])%Z /\
  make_cl_and_br_dictionaries ["CO2"; "H-12"] = Err IndexError.
Proof. vm_compute. repeat split. Qed.

(** ** C81 *)
(** Each aerosol gets one row per region: the global row with the efficiency replaced; all other rows stay. *)
Theorem C81_rows : forall (A : Type) (N : Num A) (gases forcing : dict (dict A)) mapping unit_conversion,
  let m := match mapping with Some m => m | None => default_regions end in
  wf m -> NoDup (regional_names forcing m) ->
  (all_given gases forcing m -> exists g, make_regional_aerosol_gaspamdata gases forcing mapping unit_conversion = Ok g /\
     (forall c row by_region k region x, dget gases c = Some row -> In (c, by_region) forcing -> In (k, region) m -> dget by_region region = Some x ->
        dget g (regional_name c k) = Some (dset row "ALPHA" (x * unit_conversion)%num)) /\
     (forall n, ~ In n (regional_names forcing m) -> dget g n = dget gases n)) /\
  (~ all_given gases forcing m -> exists k, make_regional_aerosol_gaspamdata gases forcing mapping unit_conversion = Err (KeyError k)).
Proof. exact @c81_rows. Qed.
Print Assumptions C81_rows.
(** The new names are different if regions have no underscore, as in the default mapping. *)
Theorem C81_names_distinct : forall V (forcing : dict V) m, wf forcing -> wf m -> (forall k, In k (dkeys m) -> ~ occurs "_" k) ->
  NoDup (regional_names forcing m).
Proof. exact @c81_distinct. Qed.
Print Assumptions C81_names_distinct.
Theorem C81_default_mapping : forall V (forcing : dict V), wf forcing -> NoDup (regional_names forcing default_regions).
Proof. intros V f W. exact (c81_distinct f default_regions W (proj1 c81_default_keys) (proj2 c81_default_keys)). Qed.
Print Assumptions C81_default_mapping.
Example C81_example :
  let gases := [("CO2", [("ALPHA", 0); ("TAU1", 5)]%Q); ("SO2", [("ALPHA", 7); ("TAU1", 1)]%Q)] in
  let forcing := [("SO2", [("EAS", -2); ("NAM", -3)]%Q)] in
  make_regional_aerosol_gaspamdata (N := QNum) gases forcing (Some [("ASIA", "EAS"); ("OECD", "NAM")]) 10%Q =
    Ok (gases ++ [("SO2_ASIA", [("ALPHA", -20); ("TAU1", 1)]%Q); ("SO2_OECD", [("ALPHA", -30); ("TAU1", 1)]%Q)]) /\
  make_regional_aerosol_gaspamdata (N := QNum) gases forcing None 10%Q = Err (KeyError "SAM") /\
  make_regional_aerosol_gaspamdata (N := QNum) gases [("BC", [])] None 10%Q = Err (KeyError "BC").
Proof. vm_compute. repeat split. Qed.
