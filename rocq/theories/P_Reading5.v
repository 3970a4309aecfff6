(** * P_Reading5: years a completed run from files must contain (C105) *)
From Coq Require Import Lia.
From Verif Require Import PyBase PyBaseFacts Num M_Utils M_Pams M_Gas M_Forcing M_Names M_Carbon M_CarbonBox M_TwoLayer M_UDM M_Driver M_Results M_BoxRun M_Parallel M_Input M_Whole M_WholeBox M_Reading
  Spec_Pams Spec_Input Spec_Parallel Spec_Whole Spec_Numbers Spec_WholeBox Spec_Reading P_Pams P_Numbers P_WholeBox P_Needs P_Reading P_Reading2.
From Verif Require P_Forc7.

Lemma int_whole v z : int_of v = Ok z -> whole_number v = Ok z.
Proof.
  assert (Q : forall y, whole_number (VInt y) = Ok y).
  { intros y. unfold whole_number. cbn [num_of]. unfold QArith_base.inject_Z, Qreduction.Qred. cbn [QArith_base.Qnum QArith_base.Qden].
    pose proof (Znumtheory.Zgcd_1_rel_prime y 1) as _. pose proof (Z.ggcd_correct_divisors y 1) as G. pose proof (Z.ggcd_gcd y 1) as D. destruct (Z.ggcd y 1) as [g [a b]]. cbn [fst snd] in *.
    rewrite Z.gcd_1_r in D. subst g. destruct G as [G1 G2]. replace b with 1%Z by lia. cbn. f_equal. lia. }
  destruct v; cbn [int_of]; intros E; try discriminate; injection E as <-; try exact (Q _); match goal with |- context [if ?q then _ else _] => destruct q end; reflexivity.
Qed.
Section Needs.
Context {A : Type} {N : Num A}.
Variables (nan : A) (number : pyfloat -> A) (float_of : A -> pyfloat).
Lemma perturbed_get t : forall (e e' : frame A) k y v, perturb_emissions t e = Ok e' -> fr_get e' k y = Ok v -> exists w, fr_get e k y = Ok w.
Proof.
  induction t as [|[[z comp] u] t IH]; intros e e' k y v P G; cbn [perturb_emissions] in P; [injection P as <-; eauto|]. cbv zeta in P.
  set (n := if _ : bool then "CO2_FF" else comp) in P.
  destruct (fr_get e n z) as [old|] eqn:O; cbn [rbind] in P; [|discriminate]. unfold fr_col in P. destruct (dget (fr_cols e) n) as [col|] eqn:C; cbn [key rbind] in P; [|discriminate].
  destruct (IH _ _ _ _ _ P G) as [w W]. clear P IH G. unfold fr_get, fr_col in W |- *. cbn [fr_cols fr_index] in W. rewrite dget_dset in W.
  destruct (String.eqb_spec n k) as [E|NE]; [|eauto]. rewrite <- E, C. cbn [key rbind] in W |- *. clear -W.
  revert W. generalize (fr_index e) as ix. intros ix. revert ix. induction col as [|x col IH]; intros [|i ix]; cbn; try discriminate.
  destruct (Z.eqb_spec i y) as [->|NY]; [intros _; exists x; reflexivity|]. apply IH.
Qed.
(** a completed run, with either carbon cycle *)
Lemma completed cfg x m0 cs m c b g : wf cfg -> Forall dictionaries (cs ++ [c]) -> x_forc x = None -> model_build number float_of cfg x = Ok m0 -> model_after nan number m0 cs m ->
  model_run nan number m (cf_udm c) (cf_emiconc c) (cf_carbon c) = Ok b ->
  wf (x_gas x) -> dget (x_gas x) "TROP_O3" = Some g -> g_unit g = "-" -> neqb (g_alpha g) #0%num = true ->
  forall first last, run_window cfg first last -> (first <= last)%Z ->
  exists z, whole_number (num_or (cf_emiconc c) "ref_yr" (VInt 2010)) = Ok z /\ (exists v, fr_get (x_conc x) "CH4" z = Ok v) /\
    (forall k, In k ["NOx"; "CO"; "NMVOC"] -> exists v, fr_get (x_emis x) k z = Ok v) /\
    (forall em, whole_number (num_or (Some cfg) "emstart" (VInt 1850)) = Ok em -> (em <= last)%Z -> x_conc_run x = false ->
       match Spec_Pams.given (cf_emiconc c) "lifetime_mode" with Some v => as_text v | None => "TAR" end = "TAR" ->
       forall k, In k ["NOx"; "CO"; "NMVOC"] -> exists v, fr_get (x_emis x) k 2000%Z = Ok v).
Proof.
  intros W FD XF B AR R WG G U Z a e [RA RE] LE.
  assert (exists i sc CC (cc0 : CC) year data T (th : thermal A T) t0, instance_numbers cfg x i /\ scenario_numbers number cfg x cs c sc /\
    o_exn (any_run nan CC year data sc th i (x_gas x) t0 cc0 true true []) = None) as (i & sc & CC & cc0 & year & data & T & th & t0 & IN & SN & OE).
  { destruct (driver_carbon_class cfg) as [cls|] eqn:DC; [destruct cls|].
    1, 3: unfold model_build in B; rewrite XF, DC in B; destruct (build number float_of cfg x) as [w0|] eqn:BB; cbn [rbind] in B; [|discriminate]; injection B as <-;
      destruct (standard_after nan number w0 cs m AR) as (w & -> & AF); cbn [model_run] in R; destruct (whole_run _ _ _ _ _ _) as [v|] eqn:RV; cbn [rbind] in R; [|discriminate];
      destruct (c99_run nan number float_of cfg x w0 cs w c v W FD BB AF RV XF) as (i & sc & cp & x0 & cl & IN & [R1 R2 R3 R4 R5 _] & _ & CL);
      exists i, sc; destruct cl; destruct CL as (q & _ & OE & _);
      exists (cc_state A), (start_hold cp x0 no_hold), (co2em2conc cp), (carbon_data nan cp (c_p sc) (c_emis sc)); do 3 eexists; (split; [exact IN|]; split; [constructor; assumption|exact OE]).
    destruct (c100_run nan number float_of cfg x m0 cs m c b W FD XF DC B AR R) as (i & sc & bp & cl & IN & SN & _ & _ & CL).
    exists i, sc. destruct cl; destruct CL as (q & _ & OE & _); unfold box_coupled_run in OE; do 7 eexists; (split; [exact IN|]; split; [exact SN|exact OE]). }
  destruct IN as [I1 I2 I3 _]. destruct SN as [S1 _ (S3 & _) S4 S5]. destruct S1 as [_ _ (W1 & W2 & W3) H4 H5 _ H7].
  assert (N1 : forall k d, Spec_Input.number cfg k d = num_or (Some cfg) k (VInt d)) by reflexivity.
  rewrite N1 in RA, RE. apply int_whole in RA, RE. assert (ST : d_start i = a) by congruence. assert (EN : d_end i = e) by congruence.
  assert (DY : d_years i = Z.to_nat (e - a + 1)) by (unfold d_years; rewrite ST, EN; reflexivity).
  assert (M : dmem (fr_cols (c_erf sc)) "TROP_O3" = false).
  { destruct (dmem (fr_cols (c_erf sc)) "TROP_O3") eqn:D; [exfalso|reflexivity]. apply dget_In_keys in D. destruct (P_Forc7.c39_columns _ _ _ _ _ _ _ S5) as (K1 & K2 & _).
    apply K2 in D. destruct D as [D|D]; [|discriminate]. apply K1 in D. destruct D as (g' & I & _ & U'). apply (wf_In_dget _ _ _ WG) in I. congruence. }
  destruct (needs th nan CC year data sc i (x_gas x) t0 cc0 g OE) as (Q1 & Q2 & Q3); [congruence|rewrite DY; lia|exact G|exact U|exact Z|exact M|].
  assert (EM : forall k y, (exists v, fr_get (c_emis sc) k y = Ok v) -> exists v, fr_get (x_emis x) k y = Ok v).
  { intros k y [v V]. destruct (x_perturb_em x) as [t|]; [eapply perturbed_get; eassumption|]. rewrite <- S4. eauto. }
  exists (ref_yr (c_p sc)). split; [exact H4|]. split; [rewrite <- S3; exact Q1|]. split; [intros k I; apply EM, Q2, I|].
  intros em E0 L0 CR LM k I. apply EM. apply Q3; [congruence|congruence| |exact I]. rewrite DY, ST, Z2Nat.id by lia. assert (emstart (c_p sc) = em) by congruence. lia.
Qed.
Variables (fs : files A) (object : pyval -> option (thing A)) (dir cwd : string).
Notation CONSTRUCT := (construct nan fs object dir cwd number float_of).
Lemma construct_is cfg : CONSTRUCT cfg = rbind (read_data nan fs object dir cwd cfg) (fun x => model_build number float_of cfg x). Proof. reflexivity. Qed.
Lemma construct_with cfg x m : read_data nan fs object dir cwd cfg = Ok x -> CONSTRUCT cfg = Ok m -> model_build number float_of cfg x = Ok m.
Proof. intros RD CO. rewrite construct_is, RD in CO. exact CO. Qed.
Lemma c105_reference cfg x m0 cs m c b g p f first last : wf cfg -> Forall dictionaries (cs ++ [c]) -> read_data nan fs object dir cwd cfg = Ok x -> x_forc x = None ->
  run_window cfg first last -> (first <= last)%Z -> dget cfg "concentrations_file" = Some p -> fs_years fs (CV p) = Ok f -> tidy f ->
  wf (x_gas x) -> dget (x_gas x) "TROP_O3" = Some g -> g_unit g = "-" -> neqb (g_alpha g) #0%num = true ->
  CONSTRUCT cfg = Ok m0 -> model_after nan number m0 cs m -> model_run nan number m (cf_udm c) (cf_emiconc c) (cf_carbon c) = Ok b ->
  exists z, whole_number (num_or (cf_emiconc c) "ref_yr" (VInt 2010)) = Ok z /\ (first <= z <= last)%Z.
Proof.
  intros W FD RD XF RW LE P F T WG G U Z CO AR R. apply (construct_with cfg x m0 RD) in CO.
  destruct (completed cfg x m0 cs m c b g W FD XF CO AR R WG G U Z first last RW LE) as (z & Z1 & [v V] & _). exists z. split; [exact Z1|].
  apply (c102_concentrations nan fs object dir cwd cfg x p f first last W RD XF RW P F T) in V. apply V.
Qed.
Lemma c105_2000 cfg x m0 cs m c b g p f first last em : wf cfg -> Forall dictionaries (cs ++ [c]) -> read_data nan fs object dir cwd cfg = Ok x -> x_forc x = None -> x_conc_run x = false ->
  run_window cfg first last -> (first <= last)%Z -> whole_number (num_or (Some cfg) "emstart" (VInt 1850)) = Ok em -> (em <= last)%Z ->
  dget cfg "emissions_file" = Some p -> fs_years fs (CV p) = Ok f -> tidy f -> ~ In "CO2_FF" (yf_names f) -> ~ In "CO2_AFOLU" (yf_names f) ->
  wf (x_gas x) -> dget (x_gas x) "TROP_O3" = Some g -> g_unit g = "-" -> neqb (g_alpha g) #0%num = true ->
  CONSTRUCT cfg = Ok m0 -> model_after nan number m0 cs m -> match Spec_Pams.given (cf_emiconc c) "lifetime_mode" with Some v => as_text v | None => "TAR" end = "TAR" ->
  model_run nan number m (cf_udm c) (cf_emiconc c) (cf_carbon c) = Ok b -> (first <= 2000 <= last)%Z.
Proof.
  intros W FD RD XF CR RW LE E0 L0 P F T F1 F2 WG G U Z CO AR LM R. apply (construct_with cfg x m0 RD) in CO.
  destruct (completed cfg x m0 cs m c b g W FD XF CO AR R WG G U Z first last RW LE) as (z & _ & _ & _ & Q). destruct (Q em E0 L0 CR LM "NOx") as [v V]; [now left|].
  apply (c102_emissions nan fs object dir cwd cfg x p f first last W RD XF RW P F T F1 F2) in V. apply V.
Qed.
End Needs.
