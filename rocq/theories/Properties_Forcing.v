(** * Properties_Forcing: forcing of emission and concentration runs (C43-C50) *)
From Coq Require Import Reals Qreals QArith Lra.
From Verif Require Import PyBase PyBaseFacts Num M_Pams Spec_Pams M_Gas M_Forcing Spec_Gas Spec_Forc
  P_Forc P_Forc2 P_Forc3 P_Forc4 P_Forc5 P_Forc6 P_Forc7.
Open Scope R_scope.

(** A small model for the examples: two years; the three main gases have factor 0 so that no logarithm enters. *)
Definition fg (unit : string) (alpha sarf : Q) : gas Q :=
  {| g_unit := unit; g_beta := 1; g_alpha := alpha; g_tau1 := 1; g_tau2 := 1; g_tau3 := 1; g_nat := 0; g_sarf := sarf |}%Q.
Definition fx_gases : dict (gas Q) :=
  [("CO2", fg "ppm" 0 0); ("CH4", fg "ppb" 0 0); ("N2O", fg "ppb" 0 0); ("SO2", fg "-" 0 1); ("LANDUSE", fg "-" 0 1); ("BC", fg "-" 2 1)]%Q.
Definition fx_pam (j : option string) : hpam Q :=
  {| nystart := 0; nyend := 1; emstart := 0; conc_run := false; lifetime_mode := ""; just_one := j; ref_yr := 1;
     qbmb := 0; qo3 := 0; qdirso2 := - (1 / 2); qindso2 := 0; qbc := 7; qoc := 0; qh2o_ch4 := 0; qnmvoc := 0; qnh3 := 0; qnox := 0;
     cl_dict := []; br_dict := [] |}%Q.
Definition fx_emis : frame Q := {| fr_index := [0; 1]%Z; fr_cols := [("SO2", [1; 3]%Q); ("BC", [0; 1]%Q)] |}.
Definition fx_erf : frame Q := {| fr_index := [0; 1]%Z; fr_cols := [("HFC", [0; 1 / 8]%Q)] |}.
Definition fx_st : hst Q :=
  {| s_gas := fx_gases; s_conc := [("CO2", [(0%Z, 280); (1%Z, 290)]); ("CH4", [(0%Z, 1); (1%Z, 1)]); ("N2O", [(0%Z, 1); (1%Z, 1)])]%Q;
     s_forc := [("CO2", [0; 0]); ("CH4", [0; 0]); ("N2O", [0; 0]); ("SO2", [0; 0]); ("LANDUSE", [0; 0]); ("BC", [0; 0]); (TOTAL, [0; 0])]%Q |}.
Definition fx_run (j : option string) (pert : option (ptable Q)) (y : Z) :=
  conc2forc (N := QNum) (fx_pam j) fx_emis fx_emis fx_erf pert y (- (1 / 4))%Q 10%Q fx_st.
Definition fx_row (o : result ((Q * Q * Q * Q) * hst Q)) (y : Z) : option ((Q * Q * Q * Q) * list (string * Q)) :=
  match o with Ok (r, st) => Some (r, map (fun kv => (fst kv, nth (Z.to_nat y) (snd kv) 0%Q)) (s_forc st)) | Err _ => None end.

(** ** C43 *)
Theorem C43_first_year : forall (p : hpam R) conc_in emis erf luc sun st st' tot nh sh w,
  let y := nystart p in
  conc2forc p conc_in emis erf None y luc sun st = Ok ((tot, nh, sh, w), st') -> wf (s_forc st) -> just_one p = None ->
  (exists c, conc_get st "CO2" y = Ok c /\ c <> 0) ->
  (forall k, In k (components (s_forc st')) -> forc_at (s_forc st') k (forc_ix p y) = if String.eqb k "LANDUSE" then luc else 0) /\
  (wf (fr_cols erf) -> tot = sum_over (fun k => cell erf k y) (dkeys (fr_cols erf)) + if smem "LANDUSE" (dkeys (s_forc st)) then luc else 0).
Proof. exact c43_first. Qed.
Print Assumptions C43_first_year.
Theorem C43_precalculated_gases : forall (p : hpam R) gt conc_in emis pc erf r, wf gt ->
  precalculate p gt conc_in emis None = Ok (pc, erf) -> fr_index pc = nystart p :: r ->
  wf (fr_cols erf) /\ forall k, cell erf k (nystart p) = 0.
Proof. exact c43_ordinary. Qed.
Print Assumptions C43_precalculated_gases.

Example C43_example : fx_row (fx_run None None 0) 0 =
  Some ((- (1 / 4), 1929 / 200, 1971 / 200, 0)%Q,
        [("CO2", 0); ("CH4", 0); ("N2O", 0); ("SO2", 0); ("LANDUSE", - (1 / 4)); ("BC", 0); (TOTAL, - (1 / 4))]%Q).
Proof. vm_compute. reflexivity. Qed.

(** ** C44 *)
Theorem C44_total_is_sum : forall (p : hpam R) conc_in emis erf pert y luc sun st st' tot nh sh w,
  conc2forc p conc_in emis erf pert y luc sun st = Ok ((tot, nh, sh, w), st') -> wf (s_forc st) ->
  dget (s_gas st) TOTAL = None -> (forall y' v, ~ In (y', TOTAL, v) (pert_rows pert)) -> wf (fr_cols erf) -> just_one p = None ->
  tot = reported_sum (s_forc st') erf (forc_ix p y) y.
Proof. exact c44_total. Qed.
Print Assumptions C44_total_is_sum.
Theorem C44_row : forall (p : hpam R) conc_in emis erf pert y luc sun st st' tot nh sh w,
  conc2forc p conc_in emis erf pert y luc sun st = Ok ((tot, nh, sh, w), st') -> wf (s_forc st) ->
  same_lengths (s_forc st) (s_forc st') /\ s_gas st' = s_gas st /\
  (forall k j, j <> forc_ix p y -> forc_at (s_forc st') k j = forc_at (s_forc st) k j) /\
  forc_at (s_forc st') TOTAL (forc_ix p y) = tot.
Proof. exact total_result. Qed.
Print Assumptions C44_row.
Theorem C44_just_one : forall (p : hpam R) conc_in emis erf pert y luc sun st st' tot nh sh w j,
  conc2forc p conc_in emis erf pert y luc sun st = Ok ((tot, nh, sh, w), st') -> wf (s_forc st) -> just_one p = Some j ->
  In j (dkeys (s_forc st)) /\ (j <> TOTAL -> tot = forc_at (s_forc st') j (forc_ix p y)) /\
  nh = north_share j * tot + sun /\ sh = (2 - north_share j) * tot + sun.
Proof. exact c44_just_one. Qed.
Print Assumptions C44_just_one.
(** A whole run from the initial arrays: every year's total is the sum over the final table's row. *)
Theorem C44_run : forall S Fb co2 (p : hpam R) conc_in emis nat_ch4 nat_n2o erf pert gt ins cc outs st',
  wf gt -> dget gt TOTAL = None ->
  handler_run S Fb co2 p conc_in emis nat_ch4 nat_n2o erf pert (nystart p) ins cc (reset_arrays p gt erf) = Ok (outs, st') ->
  wf (fr_cols erf) -> just_one p = None -> (forall y' v, ~ In (y', TOTAL, v) (pert_rows pert)) ->
  forall j tot nh sh w, nth_error outs j = Some (tot, nh, sh, w) ->
  let i := forc_ix p (nystart p + Z.of_nat j) in
  tot = reported_sum (s_forc st') erf i (nystart p + Z.of_nat j) /\ forc_at (s_forc st') TOTAL i = tot /\
  exists fb luc sun, nth_error ins j = Some (fb, luc, sun) /\ (nh + sh) / 2 = tot + sun.
Proof.
  intros S Fb co2 p conc_in emis n4 n2 erf pert gt ins cc outs st' HW HT HR.
  exact (c44_run S Fb co2 p conc_in emis n4 n2 erf pert ins (nystart p) cc _ outs st' (reset_fine p gt erf HW HT) (Z.le_refl _) HR).
Qed.
Print Assumptions C44_run.

(** -1 + 2 - 1/4 and 1/8 of the precalculated gas. *)
Example C44_example : fx_row (fx_run None None 1) 1 =
  Some ((7 / 8, 281 / 25, 1051 / 100, 12 / 13)%Q,
        [("CO2", 0); ("CH4", 0); ("N2O", 0); ("SO2", - 1); ("LANDUSE", - (1 / 4)); ("BC", 2); (TOTAL, 7 / 8)]%Q).
Proof. vm_compute. reflexivity. Qed.
Example C44_just_one_example : fx_row (fx_run (Some "BC") None 1) 1 =
  Some ((2, 647 / 50, 553 / 50, 12 / 13)%Q,
        [("CO2", 0); ("CH4", 0); ("N2O", 0); ("SO2", - 1); ("LANDUSE", - (1 / 4)); ("BC", 2); (TOTAL, 2)]%Q).
Proof. vm_compute. reflexivity. Qed.
(** A perturbation row that names the total itself breaks the sum: the components still add up to 7/8. *)
Example C44_row_for_total : fx_row (fx_run None (Some [(1%Z, TOTAL, 1%Q)]) 1) 1 =
  Some ((15 / 8, 306 / 25, 1151 / 100, 12 / 13)%Q,
        [("CO2", 0); ("CH4", 0); ("N2O", 0); ("SO2", - 1); ("LANDUSE", - (1 / 4)); ("BC", 2); (TOTAL, 15 / 8)]%Q).
Proof. vm_compute. reflexivity. Qed.

(** ** C45 *)
Theorem C45_mean : forall (p : hpam R) conc_in emis erf pert y luc sun st st' tot nh sh w,
  conc2forc p conc_in emis erf pert y luc sun st = Ok ((tot, nh, sh, w), st') -> wf (s_forc st) ->
  (nh + sh) / 2 = tot + sun.
Proof. exact c45_mean. Qed.
Print Assumptions C45_mean.
Theorem C45_split : forall (p : hpam R) conc_in emis erf pert y luc sun st st' tot nh sh w,
  conc2forc p conc_in emis erf pert y luc sun st = Ok ((tot, nh, sh, w), st') -> wf (s_forc st) ->
  dget (s_gas st) TOTAL = None -> (forall y' v, ~ In (y', TOTAL, v) (pert_rows pert)) -> wf (fr_cols erf) -> just_one p = None ->
  let f' := s_forc st' in let i := forc_ix p y in
  nh = sum_over (fun k => north_share k * forc_at f' k i) (components f') + sum_over (fun k => cell erf k y) (dkeys (fr_cols erf)) + sun /\
  sh = sum_over (fun k => (2 - north_share k) * forc_at f' k i) (components f') + sum_over (fun k => cell erf k y) (dkeys (fr_cols erf)) + sun.
Proof. exact c45_north. Qed.
Print Assumptions C45_split.

(** (281/25 + 1051/100) / 2 = 7/8 + 10. *)
Example C45_example : match fx_run None None 1 with
  | Ok ((tot, nh, sh, _), _) => Qeq_bool ((nh + sh) / 2) (tot + 10) && negb (Qeq_bool nh sh) | Err _ => false end = true.
Proof. vm_compute. reflexivity. Qed.

(** ** C46 *)
Theorem C46_weight : forall (p : hpam R) conc_in emis erf pert y luc sun st st' tot nh sh w,
  conc2forc p conc_in emis erf pert y luc sun st = Ok ((tot, nh, sh, w), st') -> wf (s_forc st) ->
  (forall k, In k (dkeys (s_forc st)) -> pert_sum (pert_rows pert) y k = 0) ->
  let f' := s_forc st' in let i := forc_ix p y in
  let all := sum_over (fun k => Rabs (forc_at f' k i)) (components f') in
  let aero := sum_over (fun k => if is_aerosol k then Rabs (forc_at f' k i) else 0) (components f') in
  0 <= w <= 1 /\ (all <= 0 -> w = 0) /\ (0 < all -> w = aero / all).
Proof. exact c46_weight. Qed.
Print Assumptions C46_weight.
Theorem C46_aerosols : forall k, is_aerosol k = true <-> aerosol_like k.
Proof. exact is_aerosol_spec. Qed.
Print Assumptions C46_aerosols.
Theorem C46_ignores_precalculated : forall (p : hpam R) conc_in emis erf1 erf2 pert y luc sun st st1 st2 t1 n1 s1 w1 t2 n2 s2 w2,
  conc2forc p conc_in emis erf1 pert y luc sun st = Ok ((t1, n1, s1, w1), st1) ->
  conc2forc p conc_in emis erf2 pert y luc sun st = Ok ((t2, n2, s2, w2), st2) -> wf (s_forc st) ->
  (forall k, In k (dkeys (s_forc st)) -> pert_sum (pert_rows pert) y k = 0) -> w1 = w2.
Proof. exact c46_independent. Qed.
Print Assumptions C46_ignores_precalculated.

Example C46_example : match fx_run None None 1 with Ok ((_, _, _, w), _) => w | Err _ => 0%Q end = (12 / 13)%Q.
Proof. vm_compute. reflexivity. Qed.
(** A row +1 for sulfate cancels its forcing -1; the weight is then 3 / (9/4). *)
Theorem C46_perturbed_can_exceed_one : exists (p : hpam Q) emis erf pert y luc sun st tot nh sh w st',
  conc2forc (N := QNum) p emis emis erf pert y luc sun st = Ok ((tot, nh, sh, w), st') /\ (1 < w)%Q.
Proof.
  exists (fx_pam None), fx_emis, fx_erf, (Some [(1%Z, "SO2", 1%Q)]), 1%Z, (- (1 / 4))%Q, 10%Q, fx_st. do 5 eexists.
  split; vm_compute; reflexivity.
Qed.
Print Assumptions C46_perturbed_can_exceed_one.

(** ** C47 *)
Theorem C47_zero_at_start : forall c0 n0 n, 0 < c0 -> rf_co2 c0 c0 n0 n = 0.
Proof. exact c47_zero. Qed.
Print Assumptions C47_zero_at_start.
Theorem C47_sign : forall c0 c n0 n, 0 < c0 -> 0 < c -> Rabs (c - c0) <= 1500 -> (n0 + n) / 2 <= 25523 ->
  (c0 < c -> 0 < rf_co2 c0 c n0 n) /\ (c < c0 -> rf_co2 c0 c n0 n < 0).
Proof. exact c47_sign. Qed.
Print Assumptions C47_sign.
Theorem C47_increasing : forall c0 c c' n0 n, 0 < c0 -> 0 < c -> c < c' -> Rabs (c - c0) <= 1500 -> Rabs (c' - c0) <= 1500 ->
  (n0 + n) / 2 <= 25523 -> rf_co2 c0 c n0 n < rf_co2 c0 c' n0 n.
Proof. exact c47_increasing. Qed.
Print Assumptions C47_increasing.
(** Far above the start value the quadratic term makes the forcing negative. *)
Theorem C47_negative_far_above : forall c0 c n0 n, 0 < c0 -> c0 + 6500 <= c -> 0 <= n0 + n -> rf_co2 c0 c n0 n < 0.
Proof. exact c47_negative. Qed.
Print Assumptions C47_negative_far_above.
Theorem C47_n2o_overlap : forall c0 c n0 n n', 0 < c0 -> c0 < c -> n < n' -> rf_co2 c0 c n0 n' < rf_co2 c0 c n0 n.
Proof. exact c47_n2o. Qed.
Print Assumptions C47_n2o_overlap.

(** The hypotheses hold for 278 ppm and its doubling. *)
Example C47_example : 0 < rf_co2 278 556 270 270 /\ rf_co2 278 556 270 270 < rf_co2 278 1000 270 270 /\ rf_co2 278 7000 270 270 < 0.
Proof.
  split; [|split].
  - apply c47_sign; try lra. rewrite Rabs_pos_eq; lra.
  - apply c47_increasing; try lra; rewrite Rabs_pos_eq; lra.
  - apply c47_negative; lra.
Qed.

(** ** C48 *)
Theorem C48_rows_accumulate : forall (p : hpam R) conc_in emis erf pt y luc sun st st0 tot0 nh0 sh0 w0,
  conc2forc p conc_in emis erf None y luc sun st = Ok ((tot0, nh0, sh0, w0), st0) -> wf (s_forc st) -> just_one p = None ->
  exists tot nh sh w st1, conc2forc p conc_in emis erf (Some pt) y luc sun st = Ok ((tot, nh, sh, w), st1) /\
    let i := forc_ix p y in let keys := dkeys (s_forc st) in
    tot = tot0 + sum_over (pert_sum pt y) keys /\
    nh = nh0 + sum_over (fun k => north_share k * pert_sum pt y k) keys /\
    sh = sh0 + sum_over (fun k => (2 - north_share k) * pert_sum pt y k) keys /\
    (forall k, In k keys -> k <> TOTAL -> forc_at (s_forc st1) k i = forc_at (s_forc st0) k i + pert_sum pt y k) /\
    (forall k j, j <> i -> forc_at (s_forc st1) k j = forc_at (s_forc st0) k j) /\
    dkeys (s_forc st1) = dkeys (s_forc st0) /\ s_conc st1 = s_conc st0 /\ s_gas st1 = s_gas st0.
Proof. exact c48_perturbed. Qed.
Print Assumptions C48_rows_accumulate.
Theorem C48_other_rows : forall (pt : ptable R) y k, (forall v, ~ In (y, k, v) pt) -> pert_sum pt y k = 0.
Proof. exact c48_other. Qed.
Print Assumptions C48_other_rows.
Theorem C48_precalculated_last_row_wins : forall (p : hpam R) gt conc_in emis pt pc erf0 pc1 erf1,
  precalculate p gt conc_in emis None = Ok (pc, erf0) -> precalculate p gt conc_in emis (Some pt) = Ok (pc1, erf1) -> complete pc ->
  pc1 = pc /\ fr_index erf1 = fr_index erf0 /\ dkeys (fr_cols erf1) = dkeys (fr_cols erf0) /\
  forall k y, In k (dkeys (fr_cols erf0)) -> In y (fr_index erf0) ->
    cell erf1 k y = cell erf0 k y + match pert_last pt y k with Some f => f | None => 0 end.
Proof. exact c48_ordinary. Qed.
Print Assumptions C48_precalculated_last_row_wins.
Theorem C48_precalculated_without_duplicates : forall (pt : ptable R) y k, NoDup (map fst pt) ->
  match pert_last pt y k with Some f => f | None => 0 end = pert_sum pt y k.
Proof. exact pert_last_sum. Qed.
Print Assumptions C48_precalculated_without_duplicates.

(** Two rows for sulfate add up; an unknown component and another year have no effect. *)
Example C48_example :
  fx_row (fx_run None (Some [(1%Z, "SO2", 1 / 2); (1%Z, "nope", 3); (0%Z, "BC", 9); (1%Z, "SO2", 1 / 2)])%Q 1) 1 =
  Some ((15 / 8, 1271 / 100, 276 / 25, 4 / 3)%Q,
        [("CO2", 0); ("CH4", 0); ("N2O", 0); ("SO2", 0); ("LANDUSE", - (1 / 4)); ("BC", 2); (TOTAL, 15 / 8)]%Q).
Proof. vm_compute. reflexivity. Qed.

(** ** C49 *)
Theorem C49_rows_accumulate : forall (rows : ptable R) emis emis', perturb_emissions rows emis = Ok emis' -> complete emis ->
  fr_index emis' = fr_index emis /\ dkeys (fr_cols emis') = dkeys (fr_cols emis) /\ complete emis' /\
  forall t y, cell emis' t y = cell emis t y + pert_sum (on_columns (dmem (fr_cols emis) "CO2") rows) y t.
Proof. exact c49_rows. Qed.
Print Assumptions C49_rows_accumulate.
(** The frame is changed in place, so a second instance built from it perturbs it again. *)
Theorem C49_second_instance : forall (rows : ptable R) emis e1 e2, complete emis ->
  perturb_emissions rows emis = Ok e1 -> perturb_emissions rows e1 = Ok e2 ->
  forall t y, cell e2 t y = cell emis t y + 2 * pert_sum (on_columns (dmem (fr_cols emis) "CO2") rows) y t.
Proof. exact c49_twice. Qed.
Print Assumptions C49_second_instance.
Theorem C49_unknown_cell : forall (rows : ptable R) y t e emis,
  (forall f, fr_get emis (if (String.eqb t "CO2" && negb (dmem (fr_cols emis) "CO2"))%bool then "CO2_FF" else t) y <> Ok f) ->
  exists k, perturb_emissions ((y, t, e) :: rows) emis = Err (KeyError k).
Proof. exact c49_unknown. Qed.
Print Assumptions C49_unknown_cell.

Example C49_example :
  let emis := {| fr_index := [2000; 2001]%Z; fr_cols := [("CO2_FF", [1; 2]%Q); ("CO2_AFOLU", [3; 4]%Q); ("CH4", [5; 6]%Q)] |} in
  let rows := [(2001%Z, "CO2", 1 / 2); (2000%Z, "CH4", 1); (2000%Z, "CH4", 2)]%Q in
  (do e <- perturb_emissions (N := QNum) rows emis; Ok (fr_cols e)) =
    Ok [("CO2_FF", [1; 5 / 2]%Q); ("CO2_AFOLU", [3; 4]%Q); ("CH4", [8; 6]%Q)] /\
  perturb_emissions (N := QNum) [(2002%Z, "CH4", 1%Q)] emis <> Ok emis.
Proof. split; vm_compute; [reflexivity|discriminate]. Qed.

(** ** C50 *)
Theorem C50_no_double_counting : forall env init hist pm (p : hpam R) d emis st y t q g v,
  opt_wf init -> Forall opt_wf hist -> opt_wf pm ->
  In (t, q) [("SO2", "qdirso2"); ("BC", "qbc"); ("OC", "qoc")] ->
  existsb (String.prefix (t ++ "_")%string) (env_gases env) = true ->
  handler_reruns env (handler_init env init) (hist ++ [pm]) = Ok d -> reads d p ->
  dget (s_gas st) t = Some g -> aerosol_forcing p emis st y t = Ok v ->
  (g_alpha g = 0 -> v = 0) /\ (g_alpha g <> 0 -> exists e, em_change emis t (nystart p) y e /\ v = e * g_alpha g).
Proof. exact c50_no_double. Qed.
Print Assumptions C50_no_double_counting.
Theorem C50_factor : forall (p : hpam R) emis st y t g q, aerosol_forcing p emis st y t = Ok q -> dget (s_gas st) t = Some g -> g_alpha g = 0 ->
  forall f, In (t, f) [("SO2", qdirso2 p); ("BC", qbc p); ("OC", qoc p)] ->
  exists d, em_change emis t (nystart p) y d /\ q = f * d.
Proof. exact c50_factor. Qed.
Print Assumptions C50_factor.
Theorem C50_indirect : forall (p : hpam R) emis st y g q, aerosol_forcing p emis st y "SO4_IND" = Ok q ->
  dget (s_gas st) "SO4_IND" = Some g -> g_alpha g = 0 ->
  exists d, em_change emis "SO2" (nystart p) y d /\ q = qindso2 p * d.
Proof. exact c50_indirect. Qed.
Print Assumptions C50_indirect.

(** Sulfate uses its factor -1/2; black carbon uses its efficiency 2 and not its factor 7. *)
Example C50_forcing_example :
  aerosol_forcing (N := QNum) (fx_pam None) fx_emis fx_st 1 "SO2" = Ok (- (1))%Q /\
  aerosol_forcing (N := QNum) (fx_pam None) fx_emis fx_st 1 "BC" = Ok 2%Q.
Proof. split; vm_compute; reflexivity. Qed.

(** ** C77 *)
Theorem C77_component_values : forall (p : hpam R) conc_in emis erf pert y luc sun st st' tot nh sh w,
  conc2forc p conc_in emis erf pert y luc sun st = Ok ((tot, nh, sh, w), st') -> wf (s_forc st) ->
  let f' := s_forc st' in let i := forc_ix p y in
  exists c0 c n0 n m0 m gc gn gm,
    conc_get st "CO2" (nystart p) = Ok c0 /\ conc_get st "CO2" y = Ok c /\ conc_get st "N2O" (nystart p) = Ok n0 /\
    conc_get st "N2O" y = Ok n /\ conc_get st "CH4" (nystart p) = Ok m0 /\ conc_get st "CH4" y = Ok m /\
    dget (s_gas st) "CO2" = Some gc /\ dget (s_gas st) "N2O" = Some gn /\ dget (s_gas st) "CH4" = Some gm /\
    forc_at f' "CO2" i = g_sarf gc * etminan_co2 c0 c n0 n + pert_sum (pert_rows pert) y "CO2" /\
    forc_at f' "N2O" i = g_sarf gn * etminan_n2o c0 c n0 n m0 m + pert_sum (pert_rows pert) y "N2O" /\
    forc_at f' "CH4" i = g_sarf gm * etminan_ch4 n0 n m0 m + pert_sum (pert_rows pert) y "CH4" /\
    forall k, In k (components f') -> ~ In k ["CO2"; "N2O"; "CH4"] -> k <> "TROP_O3" ->
      component_value p emis (s_gas st) (fun t y' c => conc_get st t y' = Ok c) (g_sarf gm * etminan_ch4 n0 n m0 m) luc y k
        (forc_at f' k i - pert_sum (pert_rows pert) y k).
Proof. exact c78. Qed.
Print Assumptions C77_component_values.
Theorem C77_ozone : forall (p : hpam R) conc_in emis erf pert y luc sun st st' tot nh sh w g,
  conc2forc p conc_in emis erf pert y luc sun st = Ok ((tot, nh, sh, w), st') -> wf (s_forc st) -> y <> nystart p ->
  In "TROP_O3" (dkeys (s_forc st)) -> dget (s_gas st) "TROP_O3" = Some g -> g_alpha g = 0 ->
  exists m mr nox noxr co cor voc vocr v0,
    conc_get st "CH4" y = Ok m /\ fr_get conc_in "CH4" (ref_yr p) = Ok mr /\
    fr_get emis "NOx" y = Ok nox /\ fr_get emis "NOx" (ref_yr p) = Ok noxr /\
    fr_get emis "CO" y = Ok co /\ fr_get emis "CO" (ref_yr p) = Ok cor /\
    fr_get emis "NMVOC" y = Ok voc /\ fr_get emis "NMVOC" (ref_yr p) = Ok vocr /\
    conc_get st "TROP_O3" (nystart p) = Ok v0 /\
    let v := 30 + 67 / 10 * (ln m - ln mr) + 17 / 100 * (nox - noxr) + 14 / 10000 * (co - cor) + 42 / 10000 * (voc - vocr) in
    let f := forc_at (s_forc st') "TROP_O3" (forc_ix p y) - pert_sum (pert_rows pert) y "TROP_O3" in
    (v0 <> 30 -> f = (v - v0) / (30 - v0) * qo3 p * g_sarf g) /\ (v0 = 30 -> f = 0).
Proof. exact c77_ozone. Qed.
Print Assumptions C77_ozone.
(** The gases computed in advance, before perturbations: efficiency and factor times the change since the first row. *)
Theorem C77_precalculated : forall (A : Type) (N : Num A) (p : hpam A) gt conc_in emis pc erf k g,
  precalculate p gt conc_in emis None = Ok (pc, erf) -> wf gt -> dget gt k = Some g -> k <> "STRAT_O3" -> In k (dkeys (fr_cols pc)) ->
  exists c e, dget (fr_cols pc) k = Some c /\ dget (fr_cols erf) k = Some e /\ List.length e = List.length c /\
    forall i ci c0, nth_error c i = Some ci -> nth_error c 0 = Some c0 -> nth_error e i = Some (g_sarf g * g_alpha g * (ci - c0))%num.
Proof. exact @c77_precalculated. Qed.
Print Assumptions C77_precalculated.

(** A gas with efficiency 1/10 and factor 2 (concentrations 3, 8), and water vapour of a zero methane forcing. *)
Example C77_example :
  let st := {| s_gas := fx_gases ++ [("SF6", fg "ppt" (1 / 10) 2); ("STRAT_H2O", fg "-" 0 1)]%Q;
               s_conc := s_conc fx_st ++ [("SF6", [(0%Z, 3); (1%Z, 8)]%Q)];
               s_forc := s_forc fx_st ++ [("SF6", [0; 0]%Q); ("STRAT_H2O", [0; 0]%Q)] |} in
  match conc2forc (N := QNum) (fx_pam None) fx_emis fx_emis fx_erf None 1 0%Q 0%Q st with
  | Ok (_, st') => map (fun k => forc_get (fx_pam None) st' k 1) ["SF6"; "STRAT_H2O"; "BC"] | Err _ => [] end = [Ok 1; Ok 0; Ok 2]%Q.
Proof. vm_compute. reflexivity. Qed.
(** Efficiency 1/10, factor 2: a rise from 3 to 8 gives 1. *)
Example C77_precalculated_example :
  precalc_erf (N := QNum) [("SF6", fg "ppt" (1 / 10) 2)]%Q (Build_frame [0; 1]%Z [("SF6", [3; 8]%Q)]) = Ok (Build_frame [0; 1]%Z [("SF6", [0; 1]%Q)]).
Proof. vm_compute. reflexivity. Qed.
(** Ozone 20 at the start, 30 in the reference year 1, of which ozone forcing is 1/2; the factor is 3. *)
Example C77_ozone_example :
  let p := {| nystart := 0; nyend := 1; emstart := 0; conc_run := false; lifetime_mode := ""; just_one := None; ref_yr := 1;
     qbmb := 0; qo3 := 1 / 2; qdirso2 := 0; qindso2 := 0; qbc := 7; qoc := 0; qh2o_ch4 := 0; qnmvoc := 0; qnh3 := 0; qnox := 0; cl_dict := []; br_dict := [] |}%Q in
  let em := Build_frame [0; 1]%Z (fr_cols fx_emis ++ [("CH4", [1; 1]%Q); ("NOx", [1; 2]%Q); ("CO", [1; 1]%Q); ("NMVOC", [1; 1]%Q)]) in
  let st := {| s_gas := fx_gases ++ [("TROP_O3", fg "-" 0 3)]; s_conc := s_conc fx_st ++ [("TROP_O3", [(0%Z, 20)]%Q)];
               s_forc := s_forc fx_st ++ [("TROP_O3", [0; 0]%Q)] |} in
  match conc2forc (N := QNum) p em em fx_erf None 1 0%Q 0%Q st with
  | Ok (_, st') => (forc_get p st' "TROP_O3" 1, conc_get st' "TROP_O3" 1) | Err e => (Err e, Err e) end = (Ok (3 / 2), Ok 30)%Q.
Proof. vm_compute. reflexivity. Qed.
