(** * P_Warm4: more CO2 emitted in runs with the box carbon cycle (C110) *)
From Coq Require Import Reals Lra Lia.
From Verif Require Import PyBase PyBaseFacts Num M_Gas M_TwoLayer M_Forcing M_Carbon M_CarbonBox M_Driver M_Results M_BoxRun Spec_Coupled Spec_Driver Spec_Reader Spec_Results Spec_Carbon Spec_Box Spec_TwoLayer Spec_TwoLayerOrder Spec_Warm
  P_Driver3 P_Box P_Box3 P_Warm3 P_Warm5.
Open Scope R_scope.

Record land_le (s s' : box_state R) : Prop := { la_atm : atm s <= atm s'; la_veg : veg s <= veg s'; la_soil : soil s <= soil s' }.
Lemma warm_step p s s' em em' t t' : shares p -> b_land_sens p = 0 -> 0 <= b_sol_base p -> b_sol_coeff p <= 0 -> tame p 278 t -> t <= t' -> 278 <= atm s -> land_le s s' -> em <= em' ->
  land_le (fst (box_year p s em t)) (fst (box_year p s' em' t')).
Proof.
  intros SH LS SB SC TM LT L [H1 H2 H3] M. assert (SH' := SH). destruct SH' as [B [F0 F1] [S0 S1] _]. destruct TM as [K0 K1].
  destruct (box_step p s em t) as (A1 & A2 & A3 & _). destruct (box_step p s' em' t') as (C1 & C2 & C3 & _).
  assert (P' : 0 < atm s) by lra. destruct (production_step p (atm s) (atm s') t B P' H1) as [Q1 Q2].
  assert (PT : production p (atm s') t' = production p (atm s') t) by (unfold production; rewrite LS; f_equal; ring).
  assert (BA : b_beta_f p / atm s <= b_beta_f p / 278) by (unfold Rdiv; apply Rmult_le_compat_l; [exact B|]; apply Rinv_le_contravar; lra).
  assert (PG := pgc_pos).
  assert (RT : ocean_rate p t' <= ocean_rate p t).
  { unfold ocean_rate. apply Rmult_le_compat_l; [exact SB|]. assert (b_sol_coeff p * t' <= b_sol_coeff p * t) by (apply Rmult_le_compat_neg_l; assumption). lra. }
  assert (RU : ocean_rate p t' * (atm s' - 278) <= ocean_rate p t * (atm s' - 278)) by (apply Rmult_le_compat_r; lra).
  constructor.
  - rewrite A1, C1, PT. set (d := atm s' - atm s). assert (D : 0 <= d) by (unfold d; lra).
    assert (X : ocean_rate p t * d + (production p (atm s') t - production p (atm s) t) <= pgc * d).
    { apply Rle_trans with (ocean_rate p t * d + b_beta_f p / 278 * d); [|rewrite <- Rmult_plus_distr_r; apply Rmult_le_compat_r; assumption].
      apply Rplus_le_compat_l. apply Rle_trans with (b_beta_f p / atm s * d); [exact Q2|apply Rmult_le_compat_r; assumption]. }
    assert (Y : b_soil_rate p * soil s <= b_soil_rate p * soil s') by (apply Rmult_le_compat_l; assumption).
    apply Rmult_le_reg_l with pgc; [exact PG|]. unfold Rdiv. rewrite !Rmult_plus_distr_l.
    replace (pgc * ((em - ocean_rate p t * (atm s - 278) + b_soil_rate p * soil s - production p (atm s) t) * / pgc))
      with (em - ocean_rate p t * (atm s - 278) + b_soil_rate p * soil s - production p (atm s) t) by (field; lra).
    replace (pgc * ((em' - ocean_rate p t' * (atm s' - 278) + b_soil_rate p * soil s' - production p (atm s') t) * / pgc))
      with (em' - ocean_rate p t' * (atm s' - 278) + b_soil_rate p * soil s' - production p (atm s') t) by (field; lra).
    unfold d in X. lra.
  - rewrite A2, C2, PT. assert (Y : 0 <= (1 - b_veg_frac p) * (veg s' - veg s)) by (apply Rmult_le_pos; lra). lra.
  - rewrite A3, C3. assert (Y : 0 <= (1 - b_soil_rate p) * (soil s' - soil s)) by (apply Rmult_le_pos; lra).
    assert (Z : 0 <= b_veg_frac p * (veg s' - veg s)) by (apply Rmult_le_pos; lra). lra.
Qed.
(** rows up to [M] of two sequences of years *)
Lemma warm_rows p M : shares p -> b_land_sens p = 0 -> 0 <= b_sol_base p -> b_sol_coeff p <= 0 -> forall ins ins' s s',
  (forall k e t e' t', (k <= M)%nat -> nth_error ins k = Some (e, t) -> nth_error ins' k = Some (e', t') -> e <= e' /\ t <= t' /\ tame p 278 t) ->
  278 <= atm s -> land_le s s' -> (forall k v, nth_error (snd (box_run p s ins)) k = Some v -> 278 <= v) ->
  forall k v v', (k <= M)%nat -> nth_error (snd (box_run p s ins)) k = Some v -> nth_error (snd (box_run p s' ins')) k = Some v' -> v <= v'.
Proof.
  intros SH LS SB SC. revert M. intros M ins. revert M. induction ins as [|[e t] ins IH]; intros M ins' s s' I L LE FL k v v' Lk V V'; [destruct k; discriminate V|].
  destruct ins' as [|[e' t'] ins']; [destruct k; discriminate V'|]. destruct (I 0%nat e t e' t' ltac:(lia) eq_refl eq_refl) as (I1 & I2 & I3).
  assert (LE1 := warm_step p s s' e e' t t' SH LS SB SC I3 I2 L LE I1). cbn [box_run] in V, V', FL.
  destruct (box_step p s e t) as (_ & _ & _ & _ & _ & C1). destruct (box_step p s' e' t') as (_ & _ & _ & _ & _ & C2).
  destruct (box_year p s e t) as [s1 c1], (box_year p s' e' t') as [s1' c1']. cbn [fst snd] in *.
  assert (F1 : 278 <= atm s1). { destruct (box_run p s1 ins). cbn [snd] in FL. rewrite <- C1. apply (FL 0%nat). reflexivity. }
  destruct k as [|k].
  - destruct (box_run p s1 ins), (box_run p s1' ins'). cbn in V, V'. injection V as <-. injection V' as <-. rewrite C1, C2. apply LE1.
  - destruct M as [|M]; [lia|]. specialize (IH M ins' s1 s1'). destruct (box_run p s1 ins) as [s2 cs], (box_run p s1' ins') as [s2' cs']. cbn [snd nth_error] in *.
    apply (IH ltac:(intros j a b a' b' Lj X Y; apply (I (S j) a b a' b' ltac:(lia) X Y)) F1 LE1 ltac:(intros j w W; apply (FL (S j)); exact W) k v v' ltac:(lia) V V').
Qed.

Lemma box_run_len p ins : forall s, List.length (snd (box_run (A := R) p s ins)) = List.length ins.
Proof. induction ins as [|[e t] ins IH]; intros s; cbn [box_run]; [reflexivity|]. destruct (box_year p s e t) as [s1 v]. specialize (IH s1). destruct (box_run p s1 ins). cbn in *. congruence. Qed.

Section Both.
Variables (nan : R) (bp : box_pam R) (sc sc' : scenario R) (c : inst R) (gt : dict (gas R)) (T : Type) (th : thermal R T) (t0 : T) (outs : list string).
Notation p := (c_p sc).
Hypothesis BF : but_for_co2 sc sc'.
Hypothesis PT : plain_table gt (c_erf sc) (c_pc sc).
Hypothesis RF : d_rf c = None.
Hypothesis DS : d_start c = nystart p.
Hypothesis DE : d_end c = nyend p.
Hypothesis CR : conc_run p = false.
Hypothesis EM : emits_more sc sc' (d_years c).
Hypothesis SH : shares bp.
Hypothesis LS : b_land_sens bp = 0.
Hypothesis SB : 0 <= b_sol_base bp.
Hypothesis SC : b_sol_coeff bp <= 0.
Hypothesis DO : distinct_outputs (t_names th).
Hypothesis DN : dget (t_names th) "dT_glob" = Some "dtemp".
Hypothesis NO : forall o, In o (output_names (t_names th)) -> ~ In o ["emissions"; "concentrations"; "forcing"; "carbon cycle"].
Hypothesis GLOB : In "dT_glob" outs.
(** what C109 says of the ocean *)
Hypothesis WARM : forall carbon carbon' r r' out out' M co2 co2' n2o,
  box_coupled_run nan bp sc th c gt t0 true carbon r = out -> box_coupled_run nan bp sc' th c gt t0 true carbon' r' = out' -> o_exn out = None -> o_exn out' = None ->
  in_frame (o_results out) "concentrations" "CO2" co2 -> in_frame (o_results out') "concentrations" "CO2" co2' -> in_frame (o_results out) "concentrations" "N2O" n2o ->
  more_co2 M co2 co2' n2o -> forall o, In o outs -> exists w w', in_array (o_results out) o w /\ in_array (o_results out') o w' /\ List.length w = d_years c /\ upto_le M w w'.

Lemma c110 carbon carbon' r r' out out' co2 co2' n2o temp c0 :
  box_coupled_run nan bp sc th c gt t0 true carbon r = out -> box_coupled_run nan bp sc' th c gt t0 true carbon' r' = out' ->
  o_exn out = None -> o_exn out' = None ->
  in_frame (o_results out) "concentrations" "CO2" co2 -> in_frame (o_results out') "concentrations" "CO2" co2' -> in_frame (o_results out) "concentrations" "N2O" n2o ->
  in_array (o_results out) "dT_glob" temp ->
  nth_error co2 0 = Some c0 -> c0 <= 1500 -> (forall v, In v co2 -> 278 <= v) -> (forall v, In v co2' -> v <= c0 + 1500) -> (forall v, In v n2o -> 0 <= v <= 1000) ->
  (forall k, (k < d_years c)%nat -> tame bp 278 (last_year temp k)) ->
  upto_le (d_years c) co2 co2' /\
  forall o, In o ("Total_forcing" :: outs) ->
  exists w w', in_array (o_results out) o w /\ in_array (o_results out') o w' /\ List.length w = d_years c /\ upto_le (d_years c) w w'.
Proof.
  intros E E' X X' C1 C2 C3 T1 Z0 Z1 LO HI NN TM.
  destruct (pt_conc _ _ _ PT "CO2" ltac:(left; reflexivity)) as [(g & G & U) ME]. assert (PTc := PT). destruct PTc as [W [_ [_ NY]] _ _ _ [WP [NE PE]]].
  destruct (c93_co2 nan bp sc th c gt t0 carbon r out g RF CR DS DE DO DN W G U ME WP PE NE NY E X) as (tm & ins & A1 & A2 & A3 & A4 & _).
  assert (PT2 := PT' sc sc' gt BF PT). assert (DS2 := DS' sc sc' c BF DS). assert (DE2 := DE' sc sc' c BF DE).
  destruct (pt_conc _ _ _ PT2 "CO2" ltac:(left; reflexivity)) as [_ ME2]. destruct PT2 as [_ [_ [_ NY2]] _ _ _ [WP2 [NE2 PE2]]].
  destruct (c93_co2 nan bp sc' th c gt t0 carbon' r' out' g RF ltac:(rewrite (bf_p _ _ BF); exact CR) DS2 DE2 DO DN W G U ME2 WP2 PE2 NE2 NY2 E' X') as (tm' & ins' & B1 & B2 & B3 & B4 & _).
  assert (tm = temp) by (unfold in_array in *; congruence). subst tm.
  assert (co2 = snd (box_run bp box_init ins)) by (eapply in_frame_fun; eassumption). assert (co2' = snd (box_run bp box_init ins')) by (eapply in_frame_fun; eassumption). subst co2 co2'.
  destruct A3 as [I1 I2]. destruct B3 as [J1 J2]. rewrite (bf_p _ _ BF) in J2.
  assert (ROW : forall k e t e' t', nth_error ins k = Some (e, t) -> nth_error ins' k = Some (e', t') -> e <= e' /\ (k = 0%nat -> e = e') /\ t = last_year temp k /\ t' = last_year tm' k).
  { intros k e t e' t' Q Q'. assert (Lk : (k < d_years c)%nat) by (rewrite <- I1; apply nth_error_Some; congruence).
    destruct (I2 k Lk) as (ff & af & F1 & F2 & F3). destruct (J2 k Lk) as (ff' & af' & F1' & F2' & F3'). destruct (EM k ff af ff' af' Lk F1 F2 F1' F2') as [M1 M2].
    rewrite Q in F3. rewrite Q' in F3'. injection F3 as -> ->. injection F3' as -> ->. rnum. split; [lra|]. split; [intros K; specialize (M2 K); lra|]. split; reflexivity. }
  set (co2 := snd (box_run bp box_init ins)) in *. set (co2' := snd (box_run bp box_init ins')) in *.
  assert (LC : List.length co2 = d_years c) by (unfold co2; rewrite box_run_len; exact I1). assert (LC' : List.length co2' = d_years c) by (unfold co2'; rewrite box_run_len; exact J1).
  (* the first year *)
  assert (FIRST : exists z, nth_error co2 0 = Some z /\ nth_error co2' 0 = Some z).
  { exists c0. split; [exact Z0|]. unfold co2, co2' in *. destruct ins as [|[e t] ins]; [discriminate Z0|]. destruct ins' as [|[e' t'] ins']; [cbn in I1, J1; lia|].
    destruct (ROW 0%nat e t e' t' eq_refl eq_refl) as (_ & Q & -> & ->). rewrite <- (Q eq_refl). cbn [last_year] in *. cbn [box_run] in *. destruct (box_year bp box_init e _) as [s1 v].
    destruct (box_run bp s1 ins). destruct (box_run bp s1 ins'). exact Z0. }
  destruct FIRST as (z & Z2 & Z3). assert (z = c0) by congruence. subst z.
  assert (MORE : forall M, (forall k v v', (k <= M)%nat -> nth_error co2 k = Some v -> nth_error co2' k = Some v' -> v <= v') -> more_co2 M co2 co2' n2o).
  { intros M H. constructor; [|intros k n _ Q; apply NN; eapply nth_error_In; exact Q]. exists c0. assert (P0 := LO c0 (nth_error_In _ _ Z0)). split; [exact Z2|]. split; [exact Z3|]. split; [lra|].
    intros k v v' Lk Q Q'. specialize (H k v v' Lk Q Q'). assert (P1 := LO v (nth_error_In _ _ Q)). assert (P2 := HI v' (nth_error_In _ _ Q')). split; [lra|]. split; apply Rabs_le; lra. }
  assert (STEP : forall M k v v', (k <= M)%nat -> nth_error co2 k = Some v -> nth_error co2' k = Some v' -> v <= v').
  { induction M as [|M IH].
    - intros k v v' Lk Q Q'. assert (k = 0%nat) by lia. subst k. rewrite Z2 in Q. rewrite Z3 in Q'. injection Q as <-. injection Q' as <-. lra.
    - destruct (WARM carbon carbon' r r' out out' M co2 co2' n2o E E' X X' C1 C2 C3 (MORE M IH) "dT_glob" GLOB) as (w & w' & W1 & W2 & W3 & [W4 W5]).
      assert (w = temp) by (unfold in_array in *; congruence). assert (w' = tm') by (unfold in_array in *; congruence). subst w w'.
      assert (TL : forall k, (k <= S M)%nat -> last_year temp k <= last_year tm' k).
      { intros [|k] Lk; [apply Rle_refl|]. cbn [last_year]. destruct (nth_error temp k) as [x|] eqn:Q.
        - assert (Lt : (k < List.length tm')%nat) by (rewrite <- W4; apply nth_error_Some; congruence). destruct (nth_error tm' k) as [x'|] eqn:Q'; [|apply nth_error_None in Q'; lia].
          rewrite (nth_error_nth _ _ _ Q), (nth_error_nth _ _ _ Q'). apply (W5 k x x' ltac:(lia) Q Q').
        - apply nth_error_None in Q. rewrite !nth_overflow by lia. apply Rle_refl. }
      intros k v v' Lk Q Q'. refine (warm_rows bp (S M) SH LS SB SC ins ins' box_init box_init _ _ _ _ k v v' Lk Q Q').
      + intros j e t e' t' Lj Y Y'. destruct (ROW j e t e' t' Y Y') as (R1 & _ & -> & ->). split; [exact R1|]. split; [apply TL; exact Lj|apply TM; rewrite <- I1; apply nth_error_Some; congruence].
      + cbn. rnum. lra.
      + constructor; apply Rle_refl.
      + intros j w Y. apply LO. eapply nth_error_In. exact Y. }
  assert (MO := MORE (d_years c) (STEP (d_years c))).
  split; [split; [congruence|intros k x x' Lk; apply (STEP _ k x x' Lk)]|].
  intros o [<-|IO].
  - destruct (c109_forcing nan _ _ (fun s _ em dt => box_year bp s em dt) (fun s _ em dt => box_year bp s em dt) (box_data nan bp sc) (box_data nan bp sc') sc sc' c gt box_init box_init BF PT RF DS DE _ _ th th t0 t0 carbon carbon' r r' out out' (d_years c) co2 co2' n2o g DO DO) as (f & f' & F1 & F2 & F3 & F4 & F5); try assumption.
    { intros q I. apply NO. apply in_app_iff in I. destruct I; assumption. }
    exists f, f'. split; [exact F1|]. split; [exact F2|]. split; [exact F3|]. split; [congruence|]. intros k x x' Lk Q Q'. destruct (F5 k x x' Lk Q Q') as (v & v' & _ & _ & H). lra.
  - exact (WARM carbon carbon' r r' out out' (d_years c) co2 co2' n2o E E' X X' C1 C2 C3 MO o IO).
Qed.
End Both.

Section Oceans.
Variables (nan : R) (bp : box_pam R) (sc sc' : scenario R) (c : inst R) (gt : dict (gas R)).
Hypothesis BF : but_for_co2 sc sc'.
Hypothesis PT : plain_table gt (c_erf sc) (c_pc sc).
Hypothesis RF : d_rf c = None.
Hypothesis DS : d_start c = nystart (c_p sc).
Hypothesis DE : d_end c = nyend (c_p sc).
Hypothesis CR : conc_run (c_p sc) = false.
Hypothesis EM : emits_more sc sc' (d_years c).
Hypothesis SH : shares bp.
Hypothesis LS : b_land_sens bp = 0.
Hypothesis SB : 0 <= b_sol_base bp.
Hypothesis SC : b_sol_coeff bp <= 0.

Lemma c110_two_layer tp carbon carbon' r r' out out' co2 co2' n2o temp c0 : calm_ocean tp ->
  (forall k vn vs, nth_error (d_vn c) k = Some vn -> nth_error (d_vs c) k = Some vs -> List.length vn = List.length vs) ->
  box_coupled_run nan bp sc (tl_thermal tp) c gt (tl_init tp) true carbon r = out -> box_coupled_run nan bp sc' (tl_thermal tp) c gt (tl_init tp) true carbon' r' = out' ->
  o_exn out = None -> o_exn out' = None ->
  in_frame (o_results out) "concentrations" "CO2" co2 -> in_frame (o_results out') "concentrations" "CO2" co2' -> in_frame (o_results out) "concentrations" "N2O" n2o ->
  in_array (o_results out) "dT_glob" temp ->
  nth_error co2 0 = Some c0 -> c0 <= 1500 -> (forall v, In v co2 -> 278 <= v) -> (forall v, In v co2' -> v <= c0 + 1500) -> (forall v, In v n2o -> 0 <= v <= 1000) ->
  (forall k, (k < d_years c)%nat -> tame bp 278 (last_year temp k)) ->
  upto_le (d_years c) co2 co2' /\
  forall o, In o ["Total_forcing"; "dT_glob"; "OHC_MIXED"; "OHC_DEEP"; "OHC700"; "OHCTOT"; "dT_fast"; "dT_slow"] ->
  exists w w', in_array (o_results out) o w /\ in_array (o_results out') o w' /\ List.length w = d_years c /\ upto_le (d_years c) w w'.
Proof.
  intros CA VV. refine (c110 nan bp sc sc' c gt _ (tl_thermal tp) (tl_init tp) ["dT_glob"; "OHC_MIXED"; "OHC_DEEP"; "OHC700"; "OHCTOT"; "dT_fast"; "dT_slow"] BF PT RF DS DE CR EM SH LS SB SC tl_distinct eq_refl _ (or_introl eq_refl) _ carbon carbon' r r' out out' co2 co2' n2o temp c0).
  - intros q I. cbn in I. repeat (destruct I as [<-|I]; [intros [J|[J|[J|[J|[]]]]]; discriminate J|]). destruct I.
  - clear carbon carbon' r r' out out' co2 co2' n2o temp c0. intros carbon carbon' r r' out out' M co2 co2' n2o E E' X X' C1 C2 C3 MO.
    exact (c109_warming nan _ _ (fun s _ em dt => box_year bp s em dt) (fun s _ em dt => box_year bp s em dt) (box_data nan bp sc) (box_data nan bp sc') sc sc' c gt box_init box_init BF PT RF DS DE tp carbon carbon' r r' out out' M co2 co2' n2o E E' X X' C1 C2 C3 MO CA ltac:(intros k vn vs _; apply VV)).
Qed.
Lemma c110_upwelling up carbon carbon' r r' out out' co2 co2' n2o temp c0 : calm_upwelling up ->
  box_coupled_run nan bp sc (ud_thermal up) c gt (M_UDM.ud_init up) true carbon r = out -> box_coupled_run nan bp sc' (ud_thermal up) c gt (M_UDM.ud_init up) true carbon' r' = out' ->
  o_exn out = None -> o_exn out' = None ->
  in_frame (o_results out) "concentrations" "CO2" co2 -> in_frame (o_results out') "concentrations" "CO2" co2' -> in_frame (o_results out) "concentrations" "N2O" n2o ->
  in_array (o_results out) "dT_glob" temp ->
  nth_error co2 0 = Some c0 -> c0 <= 1500 -> (forall v, In v co2 -> 278 <= v) -> (forall v, In v co2' -> v <= c0 + 1500) -> (forall v, In v n2o -> 0 <= v <= 1000) ->
  (forall k, (k < d_years c)%nat -> tame bp 278 (last_year temp k)) ->
  upto_le (d_years c) co2 co2' /\
  forall o, In o ["Total_forcing"; "dT_glob"; "dT_NH"; "dT_SH"; "dT_glob_air"; "dT_NH_air"; "dT_SH_air"; "dT_glob_sea"; "dT_NH_sea"; "dT_SHsea"; "OHC700"; "OHCTOT"] ->
  exists w w', in_array (o_results out) o w /\ in_array (o_results out') o w' /\ List.length w = d_years c /\ upto_le (d_years c) w w'.
Proof.
  intros CA. refine (c110 nan bp sc sc' c gt _ (ud_thermal up) (M_UDM.ud_init up) ["dT_glob"; "dT_NH"; "dT_SH"; "dT_glob_air"; "dT_NH_air"; "dT_SH_air"; "dT_glob_sea"; "dT_NH_sea"; "dT_SHsea"; "OHC700"; "OHCTOT"] BF PT RF DS DE CR EM SH LS SB SC ud_distinct eq_refl _ (or_introl eq_refl) _ carbon carbon' r r' out out' co2 co2' n2o temp c0).
  - intros q I. cbn in I. repeat (destruct I as [<-|I]; [intros [J|[J|[J|[J|[]]]]]; discriminate J|]). destruct I.
  - clear carbon carbon' r r' out out' co2 co2' n2o temp c0. intros carbon carbon' r r' out out' M co2 co2' n2o E E' X X' C1 C2 C3 MO.
    exact (c109_upwelling nan _ _ (fun s _ em dt => box_year bp s em dt) (fun s _ em dt => box_year bp s em dt) (box_data nan bp sc) (box_data nan bp sc') sc sc' c gt box_init box_init BF PT RF DS DE up carbon carbon' r r' out out' M co2 co2' n2o E E' X X' C1 C2 C3 MO CA).
Qed.
End Oceans.
