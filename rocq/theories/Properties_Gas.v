(** * Properties_Gas: concentrations (C37-C42) *)
From Coq Require Import Reals QArith.
From Verif Require Import PyBase PyBaseFacts Num M_Gas M_Forcing Spec_Gas Spec_Forc P_Gas P_Gas2 P_Gas3 P_Gas4 P_Forc3 P_Forc5 P_Forc7.
Open Scope R_scope.

(** ** C37 *)
Theorem C37_step_solves_decay_equation : forall beta q em prev, q <> 0 -> beta <> 0 ->
  (exists c, decays em beta q c /\ c 0 = prev /\ c 1 = scalar_step beta q em prev) /\
  forall c, decays em beta q c -> c 0 = prev -> c 1 = scalar_step beta q em prev.
Proof. intros beta q em prev H1 H2. split; [exact (c37_exists beta q em prev H1 H2)|]. intros c. exact (c37_unique beta q em prev c H1 H2). Qed.
Print Assumptions C37_step_solves_decay_equation.
Theorem C37_formulas_agree : forall g em prev, g_tau1 g <> 0 -> g_beta g <> 0 ->
  vec_step g em prev = scalar_step (g_beta g) (1 / g_tau1 g) (em + g_nat g) prev.
Proof. exact c37_same. Qed.
Print Assumptions C37_formulas_agree.

(** Rate 0 would be a division by zero in the code; with the placeholder exponential (x for exp x) the two formulas
    agree on rationals as well. *)
Definition gq (unit : string) (beta alpha tau nat sarf : Q) : gas Q :=
  {| g_unit := unit; g_beta := beta; g_alpha := alpha; g_tau1 := tau; g_tau2 := 100; g_tau3 := 50; g_nat := nat; g_sarf := sarf |}%Q.
Example C37_example :
  vec_step (N := QNum) (gq "ppt" 2 0 5 1 1) 9%Q 30%Q = scalar_step (N := QNum) 2%Q (1 / 5)%Q 10%Q 30%Q /\
  vec_step (N := QNum) (gq "ppt" 2 0 5 1 1) 9%Q 30%Q = 24%Q.
Proof. split; vm_compute; reflexivity. Qed.

(** ** C38 *)
Theorem C38_between_previous_and_equilibrium : forall g em prev, 0 < g_tau1 g -> g_beta g <> 0 ->
  Rmin prev (equilibrium g em) <= vec_step g em prev <= Rmax prev (equilibrium g em) /\
  (prev <> equilibrium g em -> Rmin prev (equilibrium g em) < vec_step g em prev < Rmax prev (equilibrium g em)).
Proof. intros g em prev H1 H2. split; [exact (c38_between g em prev H1 H2)|exact (c38_strict g em prev H1 H2)]. Qed.
Print Assumptions C38_between_previous_and_equilibrium.
Theorem C38_monotone : forall g ems ems' c c', 0 < g_tau1 g -> 0 < g_beta g -> c <= c' ->
  Forall2 Rle ems ems' -> Forall2 Rle (vec_years g c ems) (vec_years g c' ems').
Proof. exact c38_mono. Qed.
Print Assumptions C38_monotone.
Theorem C38_nonnegative : forall g ems c, 0 < g_tau1 g -> 0 < g_beta g -> 0 <= c -> Forall (fun e => 0 <= e + g_nat g) ems ->
  Forall (fun x => 0 <= x) (vec_years g c ems).
Proof. exact c38_nonneg. Qed.
Print Assumptions C38_nonnegative.
Theorem C38_ceiling : forall g em ems c, 0 < g_tau1 g -> 0 < g_beta g -> c <= equilibrium g em ->
  Forall (fun e => e <= em) ems -> Forall (fun x => x <= equilibrium g em) (vec_years g c ems).
Proof. exact c38_ceiling. Qed.
Print Assumptions C38_ceiling.
Theorem C38_distance_shrinks : forall g em n c m, 0 < g_tau1 g -> g_beta g <> 0 -> (n < m)%nat ->
  nth n (vec_years g c (repeat em m)) 0 - equilibrium g em = (c - equilibrium g em) * exp (- (INR (S n) / g_tau1 g)).
Proof. exact c38_decay. Qed.
Print Assumptions C38_distance_shrinks.
Theorem C38_converges : forall g em c, 0 < g_tau1 g -> g_beta g <> 0 ->
  forall eps, 0 < eps -> exists M, forall n m, (M <= n)%nat -> (n < m)%nat ->
    Rabs (nth n (vec_years g c (repeat em m)) 0 - equilibrium g em) < eps.
Proof. exact c38_limit. Qed.
Print Assumptions C38_converges.

Example C38_example : vec_years (N := QNum) (gq "ppt" 2 0 (-2) 0 1) 8%Q [4; 4]%Q = [2; - 1]%Q /\
  equilibrium {| g_unit := "ppt"; g_beta := 2; g_alpha := 0; g_tau1 := 5; g_tau2 := 1; g_tau3 := 1; g_nat := 1; g_sarf := 1 |} 9 = 25.
Proof. split; [vm_compute; reflexivity|unfold equilibrium; cbn [g_beta g_tau1 g_nat]; field]. Qed.

(** ** C39 *)
Theorem C39_ordinary_gases : forall (A : Type) (N : Num A) (p : hpam A) gv conc_in emis cf cn ef en,
  yearly conc_in cf cn -> yearly emis ef en -> wf gv ->
  has_columns conc_in (dkeys gv) -> has_columns emis (dkeys gv) ->
  (cf <= nystart p)%Z -> (nystart p <= nyend p)%Z -> (nyend p < cf + Z.of_nat cn)%Z ->
  (ef <= nystart p)%Z -> (nyend p < ef + Z.of_nat en)%Z ->
  conc_run p = true \/ (nyend p <= emstart p)%Z \/ (nystart p < emstart p)%Z ->
  exists pc, precalc_conc p gv conc_in emis = Ok pc /\ fr_index pc = years_of p /\ dkeys (fr_cols pc) = dkeys gv /\
    yearly pc (nystart p) (Z.to_nat (nyend p - nystart p + 1)) /\
    forall k g y, dget gv k = Some g -> (nystart p <= y <= nyend p)%Z ->
      (prescribed_year p y -> exists c, fr_get conc_in k y = Ok c /\ fr_get pc k y = Ok c) /\
      (~ prescribed_year p y -> exists c e, fr_get pc k (y - 1) = Ok c /\ fr_get emis k y = Ok e /\
          fr_get pc k y = Ok (vec_step g e c)).
Proof. exact @c39_precalc. Qed.
Print Assumptions C39_ordinary_gases.
(** Starting with computed concentrations is impossible: there is no year before the first. *)
Theorem C39_no_prescribed_year_fails : forall (A : Type) (N : Num A) (p : hpam A) k g gv conc_in emis cf cn ef en,
  yearly conc_in cf cn -> yearly emis ef en ->
  has_columns conc_in (dkeys ((k, g) :: gv)) -> has_columns emis (dkeys ((k, g) :: gv)) ->
  (cf <= emstart p)%Z -> (nyend p < cf + Z.of_nat cn)%Z -> (ef <= emstart p)%Z -> (nyend p < ef + Z.of_nat en)%Z ->
  conc_run p = false -> (emstart p < nyend p)%Z -> (emstart p <= nystart p)%Z -> (nystart p <= nyend p)%Z ->
  precalc_conc p ((k, g) :: gv) conc_in emis = Err IndexError.
Proof. exact @c39_no_start. Qed.
Print Assumptions C39_no_prescribed_year_fails.
Theorem C39_concentration_run : forall (A : Type) (N : Num A) S Fb co2 (p : hpam A) conc_in emis nat_ch4 nat_n2o y fb cc cc' st st',
  wf (s_conc st) -> conc_run p = true ->
  emi2conc S Fb co2 p conc_in emis nat_ch4 nat_n2o y fb cc st = Ok (cc', st') ->
  cc' = cc /\ dkeys (s_conc st') = dkeys (s_conc st) /\
  (forall t, In t (dkeys (s_conc st)) -> dmem (fr_cols conc_in) t = true ->
     exists v, fr_get conc_in t y = Ok v /\ conc_get st' t y = Ok v) /\
  (forall t y', y' <> y -> conc_get st' t y' = conc_get st t y').
Proof. exact @c39_conc_run. Qed.
Print Assumptions C39_concentration_run.
Theorem C39_before_emission_start : forall (A : Type) (N : Num A) S Fb co2 (p : hpam A) conc_in emis nat_ch4 nat_n2o y fb cc cc' st st',
  wf (s_conc st) -> conc_run p = false -> (y < emstart p)%Z ->
  emi2conc S Fb co2 p conc_in emis nat_ch4 nat_n2o y fb cc st = Ok (cc', st') ->
  (exists ff af g, fr_get emis "CO2_FF" y = Ok ff /\ fr_get emis "CO2_AFOLU" y = Ok af /\ dget (s_gas st) "CO2" = Some g /\
     let r := co2 cc y (nadd (nadd ff af) (g_nat g)) fb in cc' = fst r /\ conc_get st' "CO2" y = Ok (snd r)) /\
  dkeys (s_conc st') = dkeys (s_conc st) /\
  (forall t, In t (dkeys (s_conc st)) -> t <> "CO2" -> dmem (fr_cols conc_in) t = true ->
     exists v, fr_get conc_in t y = Ok v /\ conc_get st' t y = Ok v) /\
  (forall t y', y' <> y -> conc_get st' t y' = conc_get st t y').
Proof. exact @c39_before. Qed.
Print Assumptions C39_before_emission_start.
Theorem C39_after_emission_start : forall (A : Type) (N : Num A) S Fb co2 (p : hpam A) conc_in emis nat_ch4 nat_n2o y fb cc cc' st st',
  wf (s_conc st) -> conc_run p = false -> (emstart p <= y)%Z ->
  emi2conc S Fb co2 p conc_in emis nat_ch4 nat_n2o y fb cc st = Ok (cc', st') ->
  (In "CO2" (dkeys (s_conc st)) -> co2_done S Fb co2 emis y fb cc cc' st st') /\
  dkeys (s_conc st') = dkeys (s_conc st) /\
  (forall t, In t (dkeys (s_conc st)) -> t <> "CO2" -> computed p conc_in emis nat_ch4 nat_n2o y st st' t) /\
  (forall t y', y' <> y -> conc_get st' t y' = conc_get st t y').
Proof. exact @c39_after. Qed.
Print Assumptions C39_after_emission_start.
(** Which gases are computed in advance, which get a forcing in advance, and which are left to the yearly loop. *)
Theorem C39_partition : forall (A : Type) (N : Num A) (p : hpam A) gt conc_in emis pert pc erf, precalculate p gt conc_in emis pert = Ok (pc, erf) ->
  (forall k, In k (dkeys (fr_cols pc)) <-> exists g, In (k, g) gt /\ ~ In k ["CO2"; "CH4"; "N2O"] /\ g_unit g <> "-") /\
  (forall k, In k (dkeys (fr_cols erf)) <-> In k (dkeys (fr_cols pc)) \/ k = "STRAT_O3") /\
  (forall k, In k (gases_spicy gt erf) <-> In k (dkeys gt) /\ ~ In k (dkeys (fr_cols pc)) /\ k <> "STRAT_O3").
Proof. exact @c39_columns. Qed.
Print Assumptions C39_partition.
(** Concentrations that start after the emissions are not refused here: with bounds counted from the end of the table, later years
    are taken for the prescribed ones, and the start year has no row. *)
Theorem C39_late_concentrations : forall (A : Type) (N : Num A) (p : hpam A) gv conc_in emis pc cf cn ef en,
  yearly conc_in cf cn -> yearly emis ef en -> wf gv ->
  conc_run p = false -> (nystart p < emstart p)%Z -> (emstart p < cf)%Z -> (emstart p < nyend p)%Z -> (cf - nystart p <= Z.of_nat cn)%Z ->
  (ef <= emstart p)%Z -> (nyend p < ef + Z.of_nat en)%Z ->
  precalc_conc p gv conc_in emis = Ok pc ->
  fr_index pc = zrange (nystart p + Z.of_nat cn) (Z.to_nat (emstart p - nystart p)) ++ zrange (emstart p) (Z.to_nat (nyend p + 1 - emstart p)) /\
  ~ In (nystart p) (fr_index pc).
Proof. exact @c39_late. Qed.
Print Assumptions C39_late_concentrations.

(** Years 10-13, emissions from 12 on; with emstart = 13 = nyend the last year is prescribed although it is not before emstart. *)
Definition hq (y0 y1 em : Z) (cr : bool) : hpam Q :=
  {| nystart := y0; nyend := y1; emstart := em; conc_run := cr; lifetime_mode := "TAR"; just_one := None; ref_yr := y1;
     qbmb := 0; qo3 := 1 / 2; qdirso2 := - (1 / 2); qindso2 := - 1; qbc := 1 / 5; qoc := 0; qh2o_ch4 := 1 / 10; qnmvoc := 0; qnh3 := 0; qnox := 0;
     cl_dict := [("CFC-11", 3%Z)]; br_dict := [] |}%Q.
Definition conc_q : frame Q := {| fr_index := [9; 10; 11; 12; 13]%Z; fr_cols := [("X", [1; 2; 3; 50; 60]%Q)] |}.
Definition emis_q : frame Q := {| fr_index := [10; 11; 12; 13]%Z; fr_cols := [("X", [7; 7; 4; 6]%Q)] |}.
Example C39_example :
  precalc_conc (N := QNum) (hq 10 13 12 false) [("X", gq "ppt" 1 0 1 0 1)] conc_q emis_q
    = Ok {| fr_index := [10; 11; 12; 13]%Z; fr_cols := [("X", [2; 3; 5; 7]%Q)] |} /\
  precalc_conc (N := QNum) (hq 10 13 13 false) [("X", gq "ppt" 1 0 1 0 1)] conc_q emis_q
    = Ok {| fr_index := [10; 11; 12; 13]%Z; fr_cols := [("X", [2; 3; 50; 60]%Q)] |}.
Proof. split; vm_compute; reflexivity. Qed.
(** Concentrations from 13 to 16 only: 14 and 15 stand in for 10 and 11. *)
Example C39_late_example :
  precalc_conc (N := QNum) (hq 10 16 12 false) [("X", gq "ppt" 1 0 1 0 1)]
    {| fr_index := [13; 14; 15; 16]%Z; fr_cols := [("X", [20; 21; 22; 23]%Q)] |}
    {| fr_index := [10; 11; 12; 13; 14; 15; 16]%Z; fr_cols := [("X", [7; 7; 4; 6; 0; 0; 0]%Q)] |}
  = Ok {| fr_index := [14; 15; 12; 13; 14; 15; 16]%Z; fr_cols := [("X", [21; 22; - (14); 26; - (26); 26; - (26)]%Q)] |}.
Proof. vm_compute. reflexivity. Qed.
(** X has a concentration, SO2 has none, CH4 is one of the three main gases. *)
Example C39_partition_example :
  let gt := [("CO2", gq "ppm" 1 0 1 0 1); ("CH4", gq "ppb" 1 0 1 0 1); ("N2O", gq "ppb" 1 0 1 0 1); ("X", gq "ppt" 1 0 1 0 1); ("SO2", gq "-" 1 0 1 0 1); ("STRAT_O3", gq "-" 1 0 1 0 1)] in
  match precalculate (N := QNum) ({| nystart := 10; nyend := 13; emstart := 12; conc_run := false; lifetime_mode := ""; just_one := None; ref_yr := 13;
     qbmb := 0%Q; qo3 := 0%Q; qdirso2 := 0%Q; qindso2 := 0%Q; qbc := 0%Q; qoc := 0%Q; qh2o_ch4 := 0%Q; qnmvoc := 0%Q; qnh3 := 0%Q; qnox := 0%Q; cl_dict := []; br_dict := [] |}) gt conc_q emis_q None with
  | Ok (pc, erf) => (dkeys (fr_cols pc), dkeys (fr_cols erf), gases_spicy gt erf) | Err _ => ([], [], []) end
  = (["X"], ["X"; "STRAT_O3"], ["CO2"; "CH4"; "N2O"; "SO2"]).
Proof. vm_compute. reflexivity. Qed.

(** ** C40 *)
Theorem C40_constant : forall p emis g q c y, lifetime_mode p = "CONSTANT_12" ->
  methane_lifetime p emis g q c y = Ok (1 / 12 + 1 / g_tau2 g + 1 / g_tau3 g).
Proof. exact ml_const. Qed.
Print Assumptions C40_constant.
Theorem C40_wigley : forall p emis g q c y, lifetime_mode p = "WIGLEY" ->
  methane_lifetime p emis g q c y = Ok (q * Rpower (c / 1700) (- (238 / 1000)) + 1 / g_tau2 g + 1 / g_tau3 g) /\
  Rpower (1700 / 1700) (- (238 / 1000)) = 1 /\
  forall c', 0 < q -> 0 < c -> c < c' -> q * Rpower (c' / 1700) (- (238 / 1000)) < q * Rpower (c / 1700) (- (238 / 1000)).
Proof. intros p emis g q c y H. split; [exact (ml_wigley p emis g q c y H)|]. split; [exact wigley_ref|]. intros c'. exact (wigley_decreasing q c c'). Qed.
Print Assumptions C40_wigley.
Theorem C40_tar : forall p emis g q c y nox nox0 co co0 voc voc0, lifetime_mode p = "TAR" ->
  fr_get emis "NOx" y = Ok nox -> fr_get emis "NOx" 2000 = Ok nox0 ->
  fr_get emis "CO" y = Ok co -> fr_get emis "CO" 2000 = Ok co0 ->
  fr_get emis "NMVOC" y = Ok voc -> fr_get emis "NMVOC" 2000 = Ok voc0 ->
  methane_lifetime p emis g q c y =
  Ok (q * (1 - 32 / 100 * (ln c - ln 1751) + (42 * (nox - nox0) - 105 / 100 * (co - co0) - 315 / 100 * (voc - voc0)) / 10000)
      + 1 / g_tau2 g + 1 / g_tau3 g).
Proof. exact ml_tar. Qed.
Print Assumptions C40_tar.
Theorem C40_unknown_mode : forall p emis g q c y, ~ In (lifetime_mode p) ["TAR"; "CONSTANT_12"; "WIGLEY"] ->
  methane_lifetime p emis g q c y = Ok (q + 1 / g_tau2 g + 1 / g_tau3 g).
Proof. exact ml_unknown. Qed.
Print Assumptions C40_unknown_mode.
(** Beyond some concentration the TAR loss rate is negative, and methane grows without any emissions. *)
Theorem C40_tar_loss_turns_into_growth : forall p emis g y nox nox0 co co0 voc voc0, lifetime_mode p = "TAR" -> 0 < g_tau1 g ->
  fr_get emis "NOx" y = Ok nox -> fr_get emis "NOx" 2000 = Ok nox0 ->
  fr_get emis "CO" y = Ok co -> fr_get emis "CO" 2000 = Ok co0 ->
  fr_get emis "NMVOC" y = Ok voc -> fr_get emis "NMVOC" 2000 = Ok voc0 ->
  exists top, forall c, top < c -> exists rate, methane_lifetime p emis g (1 / g_tau1 g) c y = Ok rate /\ rate < 0 /\
    forall beta, 0 < c -> c < scalar_step beta rate 0 c.
Proof. exact tar_bad. Qed.
Print Assumptions C40_tar_loss_turns_into_growth.

Definition ozone_q : frame Q := {| fr_index := [1999; 2000; 2001]%Z; fr_cols := [("NOx", [0; 5; 15]%Q); ("CO", [0; 5; 5]%Q); ("NMVOC", [0; 5; 5]%Q)] |}.
(** At the reference concentration, NOx emissions 10 above those of 2000: 1/10 * (1 + 0.042) + 1/100 + 1/50. *)
Example C40_example :
  methane_lifetime (N := QNum) (hq 1999 2001 2000 false) ozone_q (gq "ppb" 1 0 10 0 1) (1 / 10)%Q 1751%Q 2001 = Ok (671 / 5000)%Q.
Proof. vm_compute; reflexivity. Qed.

(** ** C41 *)
Theorem C41_three_years_behind : forall (A : Type) (N : Num A) (p : hpam A) gt c c' col col' i,
  strat_o3_column p gt c = Ok col -> strat_o3_column p gt c' = Ok col' -> (i < List.length (years_of p))%nat ->
  (forall d, In d [cl_dict p; br_dict p] -> same_at c c' (nystart p) d /\ same_at c c' (nystart p + Z.of_nat i - 3) d) ->
  nth_error col i = nth_error col' i.
Proof. exact @c41_lag. Qed.
Print Assumptions C41_three_years_behind.
Theorem C41_value : forall (p : hpam R) gt conc g col, strat_o3_column p gt conc = Ok col ->
  dget gt "STRAT_O3" = Some g -> Forall (fun cm => (0 <= snd cm)%Z) (cl_dict p) ->
  List.length col = List.length (years_of p) /\
  (forall i, (i < 4)%nat -> nth i col 0 = 0) /\
  forall i, (3 <= i < List.length (years_of p))%nat -> exists cl br,
    changes conc (nystart p) (nystart p + Z.of_nat i - 3) (cl_dict p) cl /\
    changes conc (nystart p) (nystart p + Z.of_nat i - 3) (br_dict p) br /\
    nth i col 0 = ozone_loss (g_sarf g) cl br.
Proof. exact c41_column. Qed.
Print Assumptions C41_value.
Theorem C41_monotone : forall s cl cl' br br', 0 <= s -> Forall (fun md : R * R => 0 <= fst md) cl -> Forall (fun md : R * R => 0 <= fst md) br ->
  at_least cl cl' -> at_least br br' -> ozone_loss s cl' br' <= ozone_loss s cl br.
Proof. exact loss_mono. Qed.
Print Assumptions C41_monotone.
Theorem C41_odd : forall s cl br, Forall (fun md : R * R => 0 <= fst md) cl ->
  ozone_loss s (map (fun md => (fst md, - snd md)) cl) (map (fun md => (fst md, - snd md)) br) = - ozone_loss s cl br.
Proof. exact loss_odd. Qed.
Print Assumptions C41_odd.
Theorem C41_nonpositive : forall s cl br, 0 <= s -> Forall (fun md : R * R => 0 <= fst md /\ 0 <= snd md) cl ->
  Forall (fun md : R * R => 0 <= fst md /\ 0 <= snd md) br -> ozone_loss s cl br <= 0.
Proof. exact loss_nonpos. Qed.
Print Assumptions C41_nonpositive.

Definition cfc_q : frame Q := {| fr_index := [10; 11; 12; 13; 14]%Z; fr_cols := [("CFC-11", [0; 1000; 2000; 0; 0]%Q)] |}.
(** Chlorine of year 11 acts in year 14 (index 4). *)
Example C41_example : exists col, strat_o3_column (N := QNum) (hq 10 14 12 false) [("STRAT_O3", gq "-" 1 0 1 0 1)] cfc_q = Ok col /\
  map (fun x => Qeq_bool x 0) col = [true; true; true; true; false].
Proof. eexists. split; vm_compute; reflexivity. Qed.

(** ** C42 *)
Theorem C42_zero_in_first_year : forall (p : hpam R) conc_in emis st q st',
  tropospheric_ozone p conc_in emis (nystart p) st = Ok (q, st') -> q = 0.
Proof. exact first_trop. Qed.
Print Assumptions C42_zero_in_first_year.
Theorem C42_value : forall (p : hpam R) conc_in emis y st q st', tropospheric_ozone p conc_in emis y st = Ok (q, st') -> y <> nystart p ->
  exists m mr nox noxr co cor voc vocr v0,
    conc_get st "CH4" y = Ok m /\ fr_get conc_in "CH4" (ref_yr p) = Ok mr /\
    fr_get emis "NOx" y = Ok nox /\ fr_get emis "NOx" (ref_yr p) = Ok noxr /\
    fr_get emis "CO" y = Ok co /\ fr_get emis "CO" (ref_yr p) = Ok cor /\
    fr_get emis "NMVOC" y = Ok voc /\ fr_get emis "NMVOC" (ref_yr p) = Ok vocr /\
    conc_get st "TROP_O3" (nystart p) = Ok v0 /\
    let v := 30 + 67 / 10 * (ln m - ln mr) + 17 / 100 * (nox - noxr) + 14 / 10000 * (co - cor) + 42 / 10000 * (voc - vocr) in
    conc_get st' "TROP_O3" y = Ok v /\
    (v0 <> 30 -> q = (v - v0) / (30 - v0) * qo3 p) /\ (v0 = 30 -> q = 0).
Proof. exact c42_formula. Qed.
Print Assumptions C42_value.
Theorem C42_qo3_in_reference_year : forall (p : hpam R) conc_in emis st q st', let r := ref_yr p in
  tropospheric_ozone p conc_in emis r st = Ok (q, st') -> r <> nystart p ->
  conc_get st "CH4" r = fr_get conc_in "CH4" r -> (exists v0, conc_get st "TROP_O3" (nystart p) = Ok v0 /\ v0 <> 30) -> q = qo3 p.
Proof. exact c42_reference. Qed.
Print Assumptions C42_qo3_in_reference_year.
(** Emissions of the reference year change the forcing of earlier years. *)
Theorem C42_not_causal : exists (p : hpam R) conc_in emis emis' st s1 s2 s1' s2' q0 q q0' q',
  same_until emis emis' 1 /\ nystart p = 0%Z /\ (1 < ref_yr p)%Z /\
  tropospheric_ozone p conc_in emis 0 st = Ok (q0, s1) /\ tropospheric_ozone p conc_in emis 1 s1 = Ok (q, s2) /\
  tropospheric_ozone p conc_in emis' 0 st = Ok (q0', s1') /\ tropospheric_ozone p conc_in emis' 1 s1' = Ok (q', s2') /\ q <> q'.
Proof. exact c42_lookahead. Qed.
Print Assumptions C42_not_causal.

(** Start year 1999, reference year 2001: in the start year ozone is 30 - 2.55 - 0.007 - 0.021. *)
Example C42_example :
  let st := {| s_gas := []; s_conc := [("CH4", [(1999%Z, 4); (2001%Z, 4)]%Q); ("TROP_O3", [])]; s_forc := [] |} in
  let cin := {| fr_index := [2001]%Z; fr_cols := [("CH4", [4]%Q)] |} in
  let year y s := tropospheric_ozone (N := QNum) (hq 1999 2001 2000 false) cin ozone_q y s in
  (do a <- year 1999%Z st; do c <- conc_get (snd a) "TROP_O3" 1999; do b <- year 2001%Z (snd a); Ok (fst a, c, fst b))
    = Ok (0, 13711 / 500, 1 / 2)%Q.
Proof. vm_compute. reflexivity. Qed.
