(** * P_Longer: a run and a longer run from input that is the same up to the last year of the shorter one (C112) *)
From Coq Require Import Lia.
From Verif Require Import PyBase PyBaseFacts Num M_Utils M_Pams M_Gas M_Forcing M_Names M_RFuns M_Carbon M_CarbonBox M_TwoLayer M_UDM M_Driver M_Results M_BoxRun M_Parallel M_Input M_Whole M_WholeBox
  Spec_Gas Spec_Pams Spec_Parallel Spec_Whole Spec_Numbers Spec_WholeBox Spec_Driver Spec_Reader Spec_Results Spec_Coupled Spec_Span Spec_Longer P_Pams P_PamsMain P_Numbers P_WholeBox.
From Verif Require P_Gas2 P_Span2 P_Span3 P_Driver3 P_Reading5.
Local Open Scope Z_scope.

(** ** configurations *)
Lemma end_num cfg cfg' k d : other_end cfg cfg' -> k <> "nyend" -> num_or (Some cfg') k d = num_or (Some cfg) k d.
Proof. intros O K. unfold num_or, Spec_Pams.given. now rewrite (O k K). Qed.
Lemma end_thermal cfg cfg' : wf cfg -> wf cfg' -> other_end cfg cfg' -> driver_thermal cfg' = driver_thermal cfg.
Proof. intros W W' O. unfold driver_thermal, model_name. rewrite !driver_cfg_name by auto. rewrite O by discriminate. reflexivity. Qed.
Lemma end_carbon cfg cfg' : wf cfg -> wf cfg' -> other_end cfg cfg' -> driver_carbon_class cfg' = driver_carbon_class cfg.
Proof. intros W W' O. unfold driver_carbon_class, model_name. rewrite !driver_cfg_name by auto. rewrite O by discriminate. reflexivity. Qed.

(** ** numbers that are determined *)
Section Determined.
Context {A : Type} {N : Num A}.
Variables (nan : A) (number : pyfloat -> A) (float_of : A -> pyfloat).
Lemma same_value v a b : stands_for number v a -> stands_for number v b -> a = b.
Proof. intros (x & X & ->) (y & Y & ->). congruence. Qed.
Lemma same_values l : forall a b : list A, Forall2 (stands_for number) l a -> Forall2 (stands_for number) l b -> a = b.
Proof. induction l as [|v l IH]; intros a b X Y; inversion X; inversion Y; subst; [reflexivity|]. f_equal; [eapply same_value; eassumption|now apply IH]. Qed.
Lemma same_decays v (f g : option (list A * list A)) : decays number v f -> decays number v g -> f = g.
Proof.
  destruct v as [[]|], f as [[? ?]|], g as [[? ?]|]; cbn; try easy. intros [X1 X2] [Y1 Y2]. do 2 f_equal; eapply same_values; eassumption.
Qed.
Lemma all_places {P} (pl : list (string * pyval * (P -> A))) (p q : P) : (forall k d f, In (k, d, f) pl -> f p = f q) -> fold_right (fun t c => snd t p = snd t q /\ c) True pl.
Proof. induction pl as [|[[k d] f] pl IH]; intros H; [exact Logic.I|]. cbn. split; [apply (H k d); now left|]. apply IH. intros k' d' f' I. apply (H k' d'). now right. Qed.
Lemma same_tl udm (p q : tl_pam A) : tl_numbers number udm p -> tl_numbers number udm q -> p = q.
Proof.
  intros P Q. assert (E := all_places tl_places p q (fun k d f I => same_value _ _ _ (P k d f I) (Q k d f I))). clear P Q. cbn [fold_right tl_places snd] in E. destruct E as (E1 & E2 & E3 & E4 & E5 & E6 & E7 & E8 & _). cbn [snd] in *. destruct p, q.
  cbn in *. subst. reflexivity.
Qed.
Lemma same_ud udm (p q : ud_pam A) : ud_numbers number udm p -> ud_numbers number udm q -> p = q.
Proof.
  intros [P (z1 & Z1 & L1) (z2 & Z2 & L2)] [Q (z1' & Z1' & L1') (z2' & Z2' & L2')]. assert (E := all_places ud_places p q (fun k d f I => same_value _ _ _ (P k d f I) (Q k d f I))).
  assert (z1' = z1) by congruence. assert (z2' = z2) by congruence. subst z1' z2'. assert (K1 : M_UDM.lm p = M_UDM.lm q) by congruence. assert (K2 : ldtime p = ldtime q) by congruence.
  clear - E K1 K2. cbn [fold_right ud_places snd] in E. destruct E as (E1 & E2 & E3 & E4 & E5 & E6 & E7 & E8 & E9 & E10 & E11 & E12 & E13 & _). cbn [snd] in *.
  destruct p, q. cbn in *. subst. reflexivity.
Qed.
Lemma same_handler cfg cfg' gases conc hist last (p q : hpam A) : other_end cfg cfg' -> handler_numbers number cfg gases conc hist last p -> handler_numbers number cfg' gases conc hist last q ->
  cl_dict p = cl_dict q -> br_dict p = br_dict q -> q = with_end p (nyend q).
Proof.
  intros O [P1 P2 (P3 & _ & P4) P5 P6 P7 P8] [Q1 Q2 (Q3 & _ & Q4) Q5 Q6 Q7 Q8] C B.
  assert (E := all_places handler_places p q (fun k d f I => same_value _ _ _ (P1 k d f I) (Q1 k d f I))).
  assert (E2 : forall a k d f, In (a, (k, d, f)) regional_places -> f p = f q) by (intros a k d f I; exact (same_value _ _ _ (P2 a k d f I) (Q2 a k d f I))).
  assert (R1 := E2 _ _ _ _ (or_introl eq_refl)). assert (R2 := E2 _ _ _ _ (or_intror (or_introl eq_refl))). assert (R3 := E2 _ _ _ _ (or_intror (or_intror (or_introl eq_refl)))).
  rewrite (end_num cfg cfg') in Q3, Q4 by (assumption || discriminate). clear P1 P2 Q1 Q2 E2.
  assert (nystart q = nystart p) by congruence. assert (emstart q = emstart p) by congruence. assert (ref_yr q = ref_yr p) by congruence.
  assert (lifetime_mode q = lifetime_mode p) by congruence. assert (just_one q = just_one p) by congruence. assert (conc_run q = conc_run p) by congruence.
  clear - C B E R1 R2 R3 H H0 H1 H2 H3 H4. cbn [fold_right handler_places snd] in E. destruct E as (E1 & E2 & E3 & E4 & E5 & E6 & E7 & _). cbn [snd] in *.
  destruct p, q. cbn in *. subst. reflexivity.
Qed.
Lemma same_window cfg cfg' start hist last (p q : cc_pam A) x0 y0 M : other_end cfg cfg' -> carbon_numbers number cfg start hist last p x0 -> carbon_numbers number cfg' start hist last q y0 ->
  (M < years_tot p)%nat -> (M < years_tot q)%nat -> same_decay M p q /\ same_carbon M p (start_hold p x0 no_hold) (start_hold q y0 no_hold).
Proof.
  intros O [P1 P2 P3 (z & P4 & P4') _ (rs & rb & P6 & P7 & P8)] [Q1 Q2 Q3 (z' & Q4 & Q4') _ (rs' & rb' & Q6 & Q7 & Q8)] L L'.
  assert (E := all_places carbon_places p q (fun k d f I => same_value _ _ _ (P1 k d f I) (Q1 k d f I))). assert (PI := same_value _ _ _ P2 Q2). assert (X := same_value _ _ _ P3 Q3). subst y0.
  rewrite (end_num cfg cfg') in Q4 by (assumption || discriminate). assert (z' = z) by congruence. subst z'. assert (ID : idtm q = idtm p) by congruence.
  assert (rs' = rs) by (eapply same_decays; eassumption). assert (rb' = rb) by (eapply same_decays; eassumption). subst. rewrite ID in Q8.
  destruct (P_Span3.c91_carbon M p _ _ rs rb _ _ _ _ L L' P8 Q8) as (S1 & S2 & _).
  assert (W1 : with_window p (years_tot p) (r_s p) (M_Carbon.r_b p) = p) by (destruct p; reflexivity).
  assert (W2 : with_window p (years_tot q) (r_s q) (M_Carbon.r_b q) = q) by (clear -E PI ID; cbn [fold_right carbon_places snd] in E; destruct E as (E1 & E2 & E3 & E4 & E5 & E6 & E7 & E8 & E9 & E10 & E11 & E12 & _); cbn [snd] in *;
    destruct p, q; cbn in *; subst; reflexivity).
  rewrite W1, W2 in S1, S2. split; [exact S1|]. destruct S2. constructor; try reflexivity; assumption.
Qed.
Lemma same_box sets (p q : box_pam A) : box_numbers number sets p -> box_numbers number sets q -> forall s em dt, box_year p s em dt = box_year q s em dt.
Proof.
  intros P Q. assert (E := all_places box_places p q (fun k d f I => same_value _ _ _ (P k d f I) (Q k d f I))). cbn [fold_right box_places snd] in E. clear P Q. destruct E as (E1 & E2 & E3 & E4 & E5 & E6 & E7 & _). cbn [snd] in *. intros s em dt.
  destruct p, q. cbn in *. subst. reflexivity.
Qed.
End Determined.

(** ** emission perturbations *)
Section Perturbed.
Context {A : Type} {N : Num A}.
Definition perturbed (emis : frame A) (t : string) (y : Z) (new : A) (col : list A) : frame A :=
  Build_frame (fr_index emis) (dset (fr_cols emis) t (map (fun kv => if Z.eqb (fst kv) y then new else snd kv) (combine (fr_index emis) col))).
Lemma perturbed_cell emis t y new col k z : dget (fr_cols emis) t = Some col ->
  fr_get (perturbed emis t y new col) k z = if String.eqb t k then match fr_get emis k z with Ok v => Ok (if Z.eqb z y then new else v) | Err e => Err e end else fr_get emis k z.
Proof.
  intros D. unfold fr_get, fr_col, perturbed. cbn [fr_cols fr_index]. rewrite dget_dset. destruct (String.eqb_spec t k) as [<-|NE]; [|reflexivity]. rewrite D. cbn [key rbind]. clear D.
  generalize (fr_index emis) as ix. induction col as [|x col IH]; intros [|i ix]; cbn; try reflexivity. destruct (Z.eqb_spec i z) as [->|NZ]; [reflexivity|]. apply IH.
Qed.
Lemma perturb_agree (rows : ptable A) last : forall e e' f f', agree_on (until last) e e' -> perturb_emissions rows e = Ok f -> perturb_emissions rows e' = Ok f' -> agree_on (until last) f f'.
Proof.
  induction rows as [|[[y comp] v] rows IH]; intros e e' f f' AG P P'; cbn [perturb_emissions] in P, P'; [injection P as <-; injection P' as <-; exact AG|]. cbv zeta in P, P'.
  assert (ME : dmem (fr_cols e') "CO2" = dmem (fr_cols e) "CO2").
  { destruct AG as [K _]. unfold dmem. destruct (dget (fr_cols e') "CO2") eqn:D1, (dget (fr_cols e) "CO2") eqn:D2; try reflexivity; exfalso.
    - apply dget_None_keys in D2. apply D2. rewrite K. apply dget_In_keys, dmem_true. eauto.
    - apply dget_None_keys in D1. apply D1. rewrite <- K. apply dget_In_keys, dmem_true. eauto. }
  rewrite ME in P'. set (t := if _ : bool then "CO2_FF" else comp) in *.
  destruct (fr_get e t y) as [old|] eqn:O1; cbn [rbind] in P; [|discriminate]. destruct (fr_get e' t y) as [old'|] eqn:O2; cbn [rbind] in P'; [|discriminate].
  unfold fr_col in P, P'. destruct (dget (fr_cols e) t) as [col|] eqn:C1; cbn [key rbind] in P; [|discriminate]. destruct (dget (fr_cols e') t) as [col'|] eqn:C2; cbn [key rbind] in P'; [|discriminate].
  refine (IH (perturbed e t y (old + v)%num col) (perturbed e' t y (old' + v)%num col') _ _ _ P P'). destruct AG as [K G]. split.
  - unfold perturbed. cbn [fr_cols]. rewrite !dkeys_dset, K. replace (dmem (fr_cols e') t) with (dmem (fr_cols e) t); [reflexivity|]. transitivity true; [|symmetry]; apply dmem_true; eauto.
  - intros k z Lz. rewrite !perturbed_cell by assumption. rewrite (G k z Lz). destruct (String.eqb_spec t k) as [->|]; [|reflexivity]. destruct (fr_get e' k z); [|reflexivity].
    destruct (Z.eqb_spec z y) as [->|]; [|reflexivity]. rewrite (G k y Lz) in O1. congruence.
Qed.
Lemma perturb_covers (rows : ptable A) a b cs : forall e f, Spec_Coupled.covers e a b cs -> perturb_emissions rows e = Ok f -> Spec_Coupled.covers f a b cs.
Proof.
  induction rows as [|[[y comp] v] rows IH]; intros e f CV P; cbn [perturb_emissions] in P; [injection P as <-; exact CV|]. cbv zeta in P.
  set (t := if _ : bool then "CO2_FF" else comp) in *. destruct (fr_get e t y) as [old|] eqn:O1; cbn [rbind] in P; [|discriminate].
  unfold fr_col in P. destruct (dget (fr_cols e) t) as [col|] eqn:C1; cbn [key rbind] in P; [|discriminate].
  refine (IH (perturbed e t y (old + v)%num col) _ _ P). destruct CV as (s & n & (Y1 & Y2 & Y3) & L1 & L2 & HC). exists s, n. split; [|split; [exact L1|split; [exact L2|]]].
  - split; [exact Y1|]. split; [exact Y2|]. intros c w D. unfold perturbed in D. cbn [fr_cols] in D. rewrite dget_dset in D. destruct (String.eqb t c); [|eapply Y3; exact D].
    injection D as <-. rewrite map_length, combine_length, (Y3 _ _ C1), Y1, P_Gas2.zrange_len. lia.
  - intros k K. destruct (HC k K) as [w D]. unfold perturbed. cbn [fr_cols]. rewrite dget_dset. destruct (String.eqb t k); eauto.
Qed.
End Perturbed.

(** ** the runs *)
Section Longer.
Context {A : Type} {N : Num A}.
Variables (nan : A) (number : pyfloat -> A) (float_of : A -> pyfloat).
Variables (cfg cfg' : dict pyval) (x x' : data A) (first mid last last' em ry : Z) (cs : list config) (c : config).
Hypothesis OE : other_end cfg cfg'.
Hypothesis FY : whole_number (num_or (Some cfg) "nystart" (VInt 1750)) = Ok first.
Hypothesis LY : whole_number (num_or (Some cfg) "nyend" (VInt 2100)) = Ok last.
Hypothesis LY' : whole_number (num_or (Some cfg') "nyend" (VInt 2100)) = Ok last'.
Hypothesis EY : whole_number (num_or (Some cfg) "emstart" (VInt 1850)) = Ok em.
Hypothesis RY : whole_number (num_or (cf_emiconc c) "ref_yr" (VInt 2010)) = Ok ry.
Hypothesis OR : first <= mid /\ mid <= last /\ mid <= last'.
Hypothesis DU : data_until first mid x x'.
Hypothesis RL : ry <= mid.
Hypothesis TL : match Spec_Pams.given (cf_emiconc c) "lifetime_mode" with Some v => as_text v | None => "TAR" end = "TAR" -> 2000 <= mid.
Hypothesis SO : x_conc_run x = true \/ first < em /\ (mid < em \/ (last <= em <-> last' <= em)).
Hypothesis CV1 : Spec_Coupled.covers (x_conc x) first last (ordinary (x_gas x)).
Hypothesis CV2 : Spec_Coupled.covers (x_emis x) first last (ordinary (x_gas x)).
Hypothesis CV1' : Spec_Coupled.covers (x_conc x') first last' (ordinary (x_gas x)).
Hypothesis CV2' : Spec_Coupled.covers (x_emis x') first last' (ordinary (x_gas x)).
Notation M := (Z.to_nat (mid - first)).

Lemma spans i i' sc sc' : instance_numbers cfg x i -> instance_numbers cfg' x' i' -> scenario_numbers number cfg x cs c sc -> scenario_numbers number cfg' x' cs c sc' ->
  agree_span M sc sc' i i' /\ same_source (c_p sc) (nyend (c_p sc')) (nystart (c_p sc) + Z.of_nat M) /\ prepared (x_gas x) sc /\ prepared (x_gas x) sc'.
Proof.
  intros [I1 I2 I3 (I4 & I5 & I6 & I7)] [J1 J2 J3 (J4 & J5 & J6 & J7)] [S1 S2 (S3 & S4 & S5 & S6) S7 S8] [T1 T2 (T3 & T4 & T5 & T6) T7 T8].
  destruct DU as [(U1 & U1') U2 U3 U4 U5 (U6 & U7) (U8 & U9) U10 U11 U12 U13]. rewrite U3 in T1, T2, T8. rewrite U2 in T1. rewrite U9 in T8, T6. rewrite U8 in T7.
  assert (PE : c_p sc' = with_end (c_p sc) (nyend (c_p sc'))) by (eapply same_handler; [exact OE|exact S1|exact T1|congruence|congruence]).
  destruct S1 as [_ _ (W1 & W2 & W3) H4 H5 _ H7]. destruct T1 as [_ _ (V1 & V2 & V3) K4 K5 _ K7].
  rewrite (end_num cfg cfg') in J1 by (assumption || discriminate).
  assert (A1 : nystart (c_p sc) = first) by congruence. assert (A2 : nyend (c_p sc) = last) by congruence. assert (A3 : nyend (c_p sc') = last') by congruence. assert (A4 : emstart (c_p sc) = em) by congruence.
  assert (A5 : ref_yr (c_p sc) = ry) by congruence. assert (A6 : d_start i = first) by congruence. assert (A7 : d_start i' = first) by congruence. assert (A8 : d_end i = last) by congruence. assert (A9 : d_end i' = last') by congruence.
  assert (LE : nystart (c_p sc) + Z.of_nat M = mid) by lia.
  assert (A10 : nystart (c_p sc') = first) by (rewrite PE; cbn [with_end nystart]; exact A1). assert (A11 : emstart (c_p sc') = em) by (rewrite PE; cbn [with_end emstart]; exact A4).
  assert (A12 : conc_run (c_p sc') = x_conc_run x) by exact K7.
  assert (AE : agree_on (until mid) (c_emis sc) (c_emis sc')).
  { destruct (x_perturb_em x) as [t|]; [exact (perturb_agree t mid _ _ _ _ U5 S7 T7)|rewrite S7, T7; exact U5]. }
  assert (CE : Spec_Coupled.covers (c_emis sc) first last (ordinary (x_gas x))) by (destruct (x_perturb_em x) as [t|]; [exact (perturb_covers t _ _ _ _ _ CV2 S7)|rewrite S7; exact CV2]).
  assert (CE' : Spec_Coupled.covers (c_emis sc') first last' (ordinary (x_gas x))) by (destruct (x_perturb_em x) as [t|]; [exact (perturb_covers t _ _ _ _ _ CV2' T7)|rewrite T7; exact CV2']).
  rewrite LE. split; [|split; [|split]].
  - constructor; try congruence; rewrite ?LE.
    + unfold d_years. rewrite A6, A8. lia.
    + unfold d_years. rewrite A7, A9. lia.
    + split; congruence.
    + rewrite I5, J5. exact U11.
    + rewrite I4, J4. exact U10.
    + rewrite I6, J6. exact U12.
    + rewrite I7, J7. exact U13.
    + rewrite S3, T3. destruct U4 as [UK UG]. split; [exact UK|]. intros k z [Lz|[_ ->]]; apply UG; unfold until; lia.
    + destruct AE as [UK UG]. split; [exact UK|]. intros k z [Lz|[_ [->|[TM ->]]]]; apply UG; unfold until; [lia|lia|]. apply TL. congruence.
  - unfold same_source. rewrite A2, A3, A4, H7. destruct SO as [SO'|[SA SB]]; [left; exact SO'|]. right. exact SB.
  - constructor; rewrite ?A1, ?A2, ?A4; [rewrite S3, S6; exact S8|rewrite S3; exact CV1|exact CE|]. rewrite H7. destruct SO as [SO'|[SA _]]; [left; exact SO'|right; right; exact SA].
  - constructor; rewrite ?A10, ?A3, ?A11; [rewrite T3, T6; exact T8|rewrite T3; exact CV1'|exact CE'|]. rewrite A12. destruct SO as [SO'|[SA _]]; [left; exact SO'|right; right; exact SA].
Qed.
(** The conclusion, for results [r] and [r'] *)
Notation alike := (agree_until first mid last last' (x_gas x)).
Lemma alike_same cl r r' q q' : same_results q r -> same_results q' r' -> alike cl r r' -> alike cl q q'.
Proof.
  unfold agree_until. intros S S' (H1 & H2 & H3). split; [|split].
  - intros o I. destruct (H1 o I) as (v & v' & V & V' & R). exists v, v'. unfold in_array in *. rewrite S, S'. tauto.
  - unfold frames_until in *. rewrite (S "forcing"), (S' "forcing"). exact H2.
  - intros E. specialize (H3 E). unfold frames_until in *. rewrite (S "concentrations"), (S' "concentrations"). exact H3.
Qed.
Hypothesis WG : wf (x_gas x).
Hypothesis RS : forall k, In k reserved -> ~ In k (dkeys (x_gas x)).
Lemma no_frames names : names = tl_names \/ names = ud_names -> forall k, In k ["emissions"; "concentrations"; "forcing"; "carbon cycle"] -> ~ In k (output_names names).
Proof. intros [->| ->] k I J; cbn in I, J; repeat (destruct I as [<-|I]; [repeat (destruct J as [J|J]; [discriminate J|]); exact J|]); exact I. Qed.
(** one thermal model, any pair of carbon cycles that stay related *)
Lemma alike_runs {T} (th : thermal A T) (t0 : T) cl CC (year year' : CC -> nat -> A -> A -> CC * A) data data' (RC : CC -> CC -> Prop) cc0 cc0' i i' sc sc' :
  t_names th = match cl with TwoLayer => tl_names | UpwellingDiffusion => ud_names end ->
  instance_numbers cfg x i -> instance_numbers cfg' x' i' -> scenario_numbers number cfg x cs c sc -> scenario_numbers number cfg' x' cs c sc' ->
  (forall n a a' em dt, (n <= M)%nat -> RC a a' -> RC (fst (year a n em dt)) (fst (year' a' n em dt)) /\ snd (year a n em dt) = snd (year' a' n em dt)) -> RC cc0 cc0' ->
  forall out out', any_run nan CC year data sc th i (x_gas x) t0 cc0 true true [] = out -> any_run nan CC year' data' sc' th i' (x_gas x') t0 cc0' true true [] = out' ->
  o_exn out = None -> o_exn out' = None -> alike cl (o_results out) (o_results out').
Proof.
  intros TN IN IN' SN SN' KY K0 out out' E E' X X'. destruct (spans i i' sc sc' IN IN' SN SN') as (AS & SS & PR & PR'). rewrite (du_gas _ _ _ _ DU) in E'.
  assert (DO : distinct_outputs (t_names th)) by (rewrite TN; destruct cl; [apply P_Driver3.ud_distinct|apply P_Driver3.tl_distinct]).
  assert (NF : forall k, In k ["emissions"; "concentrations"; "forcing"; "carbon cycle"] -> ~ In k (output_names (t_names th))) by (rewrite TN; destruct cl; apply no_frames; tauto).
  destruct (P_Span3.c91_any nan th (x_gas x) t0 CC year year' data data' RC cc0 cc0' M sc sc' i i' true true [] [] out out' AS SS KY K0 PR PR' WG RS DO NF E E' X X') as (Q1 & Q2 & Q3).
  destruct IN as [I1 I2 _ _], IN' as [J1 J2 _ _]. rewrite (end_num cfg cfg') in J1 by (assumption || discriminate).
  assert (L1 : d_years i = Z.to_nat (last - first + 1)) by (unfold d_years; f_equal; congruence).
  assert (L2 : d_years i' = Z.to_nat (last' - first + 1)) by (unfold d_years; f_equal; congruence).
  split; [|split; assumption]. rewrite <- L1, <- L2. unfold series_of. rewrite <- TN. exact Q1.
Qed.
Hypothesis WC : wf cfg.
Hypothesis WC' : wf cfg'.
Hypothesis FD : Forall dictionaries (cs ++ [c]).
Lemma c112_data m0 m0' m m' b b' : model_build number float_of cfg x = Ok m0 -> model_build number float_of cfg' x' = Ok m0' ->
  model_after nan number m0 cs m -> model_after nan number m0' cs m' ->
  model_run nan number m (cf_udm c) (cf_emiconc c) (cf_carbon c) = Ok b -> model_run nan number m' (cf_udm c) (cf_emiconc c) (cf_carbon c) = Ok b' ->
  exists cl, driver_thermal cfg = Ok cl /\ alike cl (model_results b) (model_results b').
Proof.
  intros B B' AR AR' R R'. destruct (du_coupled _ _ _ _ DU) as [XF XF']. pose proof (end_carbon cfg cfg' WC WC' OE) as EC. pose proof (end_thermal cfg cfg' WC WC' OE) as ET.
  assert (STD : driver_carbon_class cfg <> Ok BoxCarbon -> exists cl, driver_thermal cfg = Ok cl /\ alike cl (model_results b) (model_results b')).
  { intros NB. assert (BB : exists w0, m0 = Standard w0 /\ build number float_of cfg x = Ok w0).
    { unfold model_build in B. rewrite XF in B. destruct (driver_carbon_class cfg) as [[]|]; try (now destruct NB); destruct (build number float_of cfg x) as [w0|]; try discriminate B; injection B as <-; eauto. }
    assert (BB' : exists w0, m0' = Standard w0 /\ build number float_of cfg' x' = Ok w0).
    { unfold model_build in B'. rewrite XF', EC in B'. destruct (driver_carbon_class cfg) as [[]|]; try (now destruct NB); destruct (build number float_of cfg' x') as [w0|]; try discriminate B'; injection B' as <-; eauto. }
    destruct BB as (w0 & -> & BB), BB' as (w0' & -> & BB'). destruct (standard_after nan number w0 cs m AR) as (w & -> & AF). destruct (standard_after nan number w0' cs m' AR') as (w' & -> & AF').
    cbn [model_run] in R, R'. destruct (whole_run nan number w _ _ _) as [v|] eqn:RV in R; [|discriminate R]. destruct (whole_run nan number w' _ _ _) as [v'|] eqn:RV' in R'; [|discriminate R'].
    injection R as <-. injection R' as <-. cbn [model_results].
    destruct (c99_run nan number float_of cfg x w0 cs w c v WC FD BB AF RV XF) as (i & sc & cp & x0 & cl & IN & [R1 R2 R3 R4 R5 (st & R6 & R7)] & TH & CL).
    destruct (c99_run nan number float_of cfg' x' w0' cs w' c v' WC' FD BB' AF' RV' XF') as (i' & sc' & cp' & x0' & cl' & IN' & [R1' R2' R3' R4' R5' (st' & R6' & R7')] & TH' & CL').
    assert (cl' = cl) by congruence. subst cl'. exists cl. split; [exact TH|].
    assert (SN : scenario_numbers number cfg x cs c sc) by (constructor; assumption). assert (SN' : scenario_numbers number cfg' x' cs c sc') by (constructor; assumption).
    destruct (spans i i' sc sc' IN IN' SN SN') as (AS & _).
    assert (NS : nystart (c_p sc') = nystart (c_p sc)) by (rewrite (sp_p _ _ _ _ _ AS); reflexivity).
    assert (NF : nystart (c_p sc) = first) by (destruct R1 as [_ _ (HW & _) _ _ _ _]; congruence).
    assert (st' = st).
    { rewrite NS in R6'. destruct (du_conc _ _ _ _ DU) as [_ UG]. rewrite <- UG in R6' by (unfold until; lia). congruence. }
    subst st'.
    assert (YT : (M < years_tot cp)%nat /\ (M < years_tot cp')%nat).
    { destruct (cn_years _ _ _ _ _ _ _ R7) as (y0 & y1 & Y0 & Y1 & YT). destruct (cn_years _ _ _ _ _ _ _ R7') as (y0' & y1' & Y0' & Y1' & YT').
      rewrite (end_num cfg cfg') in Y0' by (assumption || discriminate). rewrite Y0 in Y0', FY. rewrite Y1 in LY. rewrite Y1' in LY'. injection Y0' as <-.
      rewrite (P_Reading5.int_whole (VInt y0) y0 eq_refl) in FY. rewrite (P_Reading5.int_whole (VInt y1) y1 eq_refl) in LY. rewrite (P_Reading5.int_whole (VInt y1') y1' eq_refl) in LY'.
      injection FY as ->. injection LY as ->. injection LY' as ->. rewrite YT, YT'. lia. }
    destruct YT as [YT YT']. destruct (same_window number cfg cfg' _ _ _ cp cp' x0 x0' M OE R7 R7' YT YT') as [SD SC].
    destruct cl; destruct CL as (p & P & OX & SR); destruct CL' as (p' & P' & OX' & SR').
    - rewrite <- (same_ud number _ p p' P P') in OX', SR'. refine (alike_same _ _ _ _ _ SR SR' _).
      exact (alike_runs (ud_thermal p) (ud_init p) UpwellingDiffusion (cc_state A) (co2em2conc cp) (co2em2conc cp') (carbon_data nan cp (c_p sc) (c_emis sc)) (carbon_data nan cp' (c_p sc') (c_emis sc'))
        (same_carbon M cp) _ _ i i' sc sc' eq_refl IN IN' SN SN' (fun n a a' em dt L K => P_Span2.same_co2 M cp cp' SD a a' n em dt K L) SC _ _ eq_refl eq_refl OX OX').
    - rewrite <- (same_tl number _ p p' P P') in OX', SR'. refine (alike_same _ _ _ _ _ SR SR' _).
      exact (alike_runs (tl_thermal p) (tl_init p) TwoLayer (cc_state A) (co2em2conc cp) (co2em2conc cp') (carbon_data nan cp (c_p sc) (c_emis sc)) (carbon_data nan cp' (c_p sc') (c_emis sc'))
        (same_carbon M cp) _ _ i i' sc sc' eq_refl IN IN' SN SN' (fun n a a' em dt L K => P_Span2.same_co2 M cp cp' SD a a' n em dt K L) SC _ _ eq_refl eq_refl OX OX'). }
  destruct (driver_carbon_class cfg) as [[]|] eqn:DC; try (apply STD; discriminate). clear STD.
  destruct (c100_run nan number float_of cfg x m0 cs m c b WC FD XF DC B AR R) as (i & sc & bp & cl & IN & SN & BN & TH & CL).
  destruct (c100_run nan number float_of cfg' x' m0' cs m' c b' WC' FD XF' EC B' AR' R') as (i' & sc' & bp' & cl' & IN' & SN' & BN' & TH' & CL').
  assert (cl' = cl) by congruence. subst cl'. exists cl. split; [exact TH|]. unfold box_coupled_run in CL, CL'.
  assert (KY : forall n a a' em dt, (n <= M)%nat -> a = a' -> fst (box_year bp a em dt) = fst (box_year bp' a' em dt) /\ snd (box_year bp a em dt) = snd (box_year bp' a' em dt)).
  { intros n a a' e dt _ <-. rewrite (same_box number _ bp bp' BN BN'). split; reflexivity. }
  destruct cl; destruct CL as (p & P & OX & SR); destruct CL' as (p' & P' & OX' & SR').
  - rewrite <- (same_ud number _ p p' P P') in OX', SR'. refine (alike_same _ _ _ _ _ SR SR' _).
    exact (alike_runs (ud_thermal p) (ud_init p) UpwellingDiffusion (box_state A) (fun s _ em dt => box_year bp s em dt) (fun s _ em dt => box_year bp' s em dt) (box_data nan bp sc) (box_data nan bp' sc')
      eq _ _ i i' sc sc' eq_refl IN IN' SN SN' KY eq_refl _ _ eq_refl eq_refl OX OX').
  - rewrite <- (same_tl number _ p p' P P') in OX', SR'. refine (alike_same _ _ _ _ _ SR SR' _).
    exact (alike_runs (tl_thermal p) (tl_init p) TwoLayer (box_state A) (fun s _ em dt => box_year bp s em dt) (fun s _ em dt => box_year bp' s em dt) (box_data nan bp sc) (box_data nan bp' sc')
      eq _ _ i i' sc sc' eq_refl IN IN' SN SN' KY eq_refl _ _ eq_refl eq_refl OX OX').
Qed.
End Longer.
