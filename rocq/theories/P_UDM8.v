(** * P_UDM8: positivity and order preservation of runs *)
From Coq Require Import Reals ZArith List Lra Lia Bool.
From Verif Require Import Num M_TwoLayer M_UDM Spec_TwoLayer Spec_TwoLayerRuns Spec_UDM Spec_UDMRuns P_TwoLayer P_UDM P_UDM2 P_UDM3 P_UDM4 P_UDM5 P_UDM6 P_UDM7.
Import ListNotations.
Open Scope R_scope.

Section Pos.
Variable p : ud_pam R.
Hypothesis Ha : admissible p.
Hypothesis Hst : stable p.

Lemma Forall0_le (l m : list R) : Forall (eq 0) l -> Forall2 Rle l m -> Forall (Rle 0) m.
Proof. intros H1 H2. induction H2 as [|x y l m Hxy Hlm IH]; [constructor|]. inversion H1; subst. constructor; [assumption|apply IH; assumption]. Qed.
Lemma zeros_le (m : list R) : Forall (Rle 0) m -> Forall2 Rle (map (fun _ => 0) m) m.
Proof. induction 1; constructor; assumption. Qed.
Lemma map0_zero (m : list R) : Forall (eq 0) (map (fun _ => 0) m).
Proof. induction m; constructor; [reflexivity|assumption]. Qed.
Lemma Forall_nth0 (l : list R) i : Forall (Rle 0) l -> 0 <= nth i l 0.
Proof. intro H. revert i. induction H; intros [|i]; cbn [nth]; try lra; auto. Qed.

Lemma ramp_mono im f prev f' prev' : (im < ldtime p)%nat -> f <= f' -> prev <= prev' -> ramp p im f prev <= ramp p im f' prev'.
Proof.
  intros Hi H1 H2. rewrite !ramp_eq by apply (ad_ld _ Ha). pose proof (L_pos p Ha) as HL.
  assert (Hk : 0 <= INR (im + 1) / INR (ldtime p) <= 1).
  { split; [apply Rmult_le_pos; [apply pos_INR|left; apply Rinv_0_lt_compat; exact HL]|].
    apply (Rmult_le_reg_r (INR (ldtime p))); [exact HL|]. unfold Rdiv. rewrite Rmult_assoc, Rinv_l by lra.
    rewrite Rmult_1_r, Rmult_1_l. apply le_INR. lia. }
  set (k := INR (im + 1) / INR (ldtime p)) in *. nra.
Qed.
Lemma dq_mono im f prev v f' prev' v' k : (im < ldtime p)%nat -> f <= f' -> prev <= prev' -> Forall2 Rle v v' ->
  dq p im f prev v k <= dq p im f' prev' v' k.
Proof.
  intros. unfold dq. rnum. apply Rplus_le_compat; [apply ramp_mono; assumption|apply Forall2_nth; assumption].
Qed.
Lemma ramp_zero im : ramp p im 0 0 = 0.
Proof. unfold ramp. rnum. ring. Qed.
Lemma dq_nonneg im f prev v k : (im < ldtime p)%nat -> 0 <= f -> 0 <= prev -> Forall (Rle 0) v -> 0 <= dq p im f prev v k.
Proof.
  intros. unfold dq. rnum. apply Rplus_le_le_0_compat; [|apply Forall_nth0; assumption].
  rewrite <- (ramp_zero im). apply ramp_mono; assumption.
Qed.

Definition acc_nonneg (x : acc R) : Prop :=
  Forall (Rle 0) (x_tn x) /\ Forall (Rle 0) (x_ts x) /\ 0 <= x_t1n x /\ 0 <= x_t1s x /\
  0 <= x_tempn x /\ 0 <= x_temps x /\ 0 <= x_an x /\ 0 <= x_as x /\ 0 <= x_sn x /\ 0 <= x_ss x.

Section Y.
Variable s : ud_state R.
Hypothesis Href : refreshed p s.
Hypothesis Hrl : 0 <= u_rlamda s.
Variables (fn fs : R) (vn vs : list R).

Lemma substep_nonneg x im : acc_ok p s x -> acc_nonneg x ->
  upwelling_not_reversed p (x_t1n x) -> upwelling_not_reversed p (x_t1s x) ->
  0 <= sub_dqn p s fn vn im -> 0 <= sub_dqs p s fs vn vs im ->
  acc_nonneg (substep p s fn fs vn vs x im).
Proof.
  intros Hok (N1 & N2 & N3 & N4 & N5 & N6 & N7 & N8 & N9 & N10) U1 U2 Q1 Q2.
  rewrite substep_eq by assumption.
  pose proof (gn_pos p s Href Ha Hrl) as G1. pose proof (gs_pos p s Href Ha Hrl) as G2. pose proof (det_ok p s Href Ha Hrl) as G3.
  pose proof (ad_lm _ Ha) as A1. pose proof (ad_ld _ Ha) as A2. pose proof (ad_mixed _ Ha) as A3.
  pose proof (rk_nonneg p A2 (ad_akapa _ Ha)) as Hrk. pose proof (ad_eff _ Ha) as A8. pose proof (st_wmix _ Hst) as Hwm.
  assert (W1 : 0 <= wcfac_of p (x_t1n x) <= W p / INR (ldtime p)) by (rewrite wcfac_eq by exact A2; apply upwell_range; assumption).
  assert (W2 : 0 <= wcfac_of p (x_t1s x) <= W p / INR (ldtime p)) by (rewrite wcfac_eq by exact A2; apply upwell_range; assumption).
  assert (T1 : Forall (Rle 0) (new_tn p s fn fs vn vs x im)).
  { eapply Forall0_le; [|unfold new_tn; apply band_mono].
    - apply band_zero. apply rhs_n_zero; apply map0_zero.
    - apply sys_mrow; try assumption; [apply rhs_n_length|apply gam_n_ok; assumption|apply W1|apply W_diff; assumption|lra].
    - apply rhs_n_mono; try assumption; apply zeros_le; assumption. }
  assert (T2 : Forall (Rle 0) (new_ts p s fn fs vn vs x im)).
  { eapply Forall0_le; [|unfold new_ts; apply band_mono].
    - apply band_zero. apply rhs_s_zero; apply map0_zero.
    - apply sys_mrow; try assumption; [apply rhs_s_length|apply gam_s_ok; assumption|apply W2|apply W_diff; assumption|lra].
    - apply rhs_s_mono; try assumption; apply zeros_le; assumption. }
  destruct (fx_ok p Ha s Href Hrl) as (X1 & X2 & X3 & X4).
  pose proof (ad_foan _ Ha) as Fn. pose proof (ad_foas _ Ha) as Fs. pose proof (st_foan _ Hst). pose proof (st_foas _ Hst).
  pose proof (Forall_nth0 _ 0 T1) as M1. pose proof (Forall_nth0 _ 0 T2) as M2.
  assert (Y1 : 0 <= new_air_n p s fn fs vn vs x im).
  { unfold new_air_n. eapply Rle_trans; [right; symmetry; exact (air_zero p (foan p) (u_fnx s) (foas p) (u_fsx s) 0 0 eq_refl eq_refl)|].
    apply air_mono; assumption. }
  assert (Y2 : 0 <= new_air_s p s fn fs vn vs x im).
  { unfold new_air_s. eapply Rle_trans; [right; symmetry; exact (air_zero p (foas p) (u_fsx s) (foan p) (u_fnx s) 0 0 eq_refl eq_refl)|].
    apply air_mono; assumption. }
  assert (HL : 0 < / INR (ldtime p)) by (apply Rinv_0_lt_compat, L_pos, Ha).
  assert (B1 : 0 <= foan p * nth 0 (new_tn p s fn fs vn vs x im) 0 + (1 - foan p) * new_air_n p s fn fs vn vs x im).
  { apply Rplus_le_le_0_compat; apply Rmult_le_pos; lra. }
  assert (B2 : 0 <= foas p * nth 0 (new_ts p s fn fs vn vs x im) 0 + (1 - foas p) * new_air_s p s fn fs vn vs x im).
  { apply Rplus_le_le_0_compat; apply Rmult_le_pos; lra. }
  unfold acc_nonneg. cbn [x_tn x_ts x_t1n x_t1s x_tempn x_temps x_an x_as x_sn x_ss].
  repeat split; try assumption; apply Rplus_le_le_0_compat; try assumption; apply Rmult_le_pos; lra.
Qed.

Lemma year_acc_nonneg n : (n <= ldtime p)%nat -> Forall (Rle 0) (u_tn s) -> Forall (Rle 0) (u_ts s) ->
  0 <= u_pfn s -> 0 <= u_pfs s -> 0 <= fn -> 0 <= fs -> Forall (Rle 0) vn -> Forall (Rle 0) vs ->
  (forall k, (k < n)%nat -> upwelling_not_reversed p (x_t1n (year_acc p s fn fs vn vs k)) /\
                            upwelling_not_reversed p (x_t1s (year_acc p s fn fs vn vs k))) ->
  acc_nonneg (year_acc p s fn fs vn vs n).
Proof.
  intros Hn H1 H2 H3 H4 H5 H6 H7 H8 Hu. induction n as [|n IH].
  - unfold acc_nonneg. cbn. repeat split; assumption || lra.
  - rewrite year_acc_S. destruct (Hu n ltac:(lia)) as [U1 U2]. apply substep_nonneg; try assumption.
    + apply year_acc_ok. exact Href.
    + apply IH; [lia|]. intros. apply Hu. lia.
    + apply dq_nonneg; assumption || lia.
    + apply dq_nonneg; assumption || lia.
Qed.
End Y.

Lemma sumn_nonneg f n : (forall i, (i < n)%nat -> 0 <= f i) -> 0 <= sumn f n.
Proof. induction n; intro H; cbn [sumn]; [lra|]. apply Rplus_le_le_0_compat; [apply IHn; intros; apply H; lia|apply H; lia]. Qed.
Lemma sumn_le f g n : (forall i, (i < n)%nat -> f i <= g i) -> sumn f n <= sumn g n.
Proof. induction n; intro H; cbn [sumn]; [lra|]. apply Rplus_le_compat; [apply IHn; intros; apply H; lia|apply H; lia]. Qed.
Lemma thick_pos i : 0 < thick p i.
Proof. destruct i; cbn [thick]; [apply (ad_mixed _ Ha)|lra]. Qed.
Lemma column_mono x y : Forall2 Rle x y -> column p x <= column p y.
Proof.
  intro H. apply sumn_le. intros i Hi. apply Rmult_le_compat_l; [left; apply thick_pos|apply Forall2_nth; exact H].
Qed.
Lemma unit_pos : 0 < ohc_unit. Proof. unfold ohc_unit. lra. Qed.
Lemma ohctot_mono x y x' y' : Forall2 Rle x x' -> Forall2 Rle y y' -> ohctot p x y <= ohctot p x' y'.
Proof.
  intros H1 H2. rewrite !ohctot_ocean. pose proof unit_pos. apply Rmult_le_compat_l; [lra|].
  pose proof (ad_foan _ Ha). pose proof (ad_foas _ Ha). pose proof (column_mono _ _ H1). pose proof (column_mono _ _ H2).
  unfold ocean. apply Rplus_le_compat; apply Rmult_le_compat_l; lra.
Qed.
Lemma ohctot_zero l m : Forall (eq 0) l -> Forall (eq 0) m -> ohctot p l m = 0.
Proof. intros. apply Forall0_nsum, hav_zero; assumption. Qed.

Definition state_nonneg (s : ud_state R) : Prop :=
  Forall (Rle 0) (u_tn s) /\ Forall (Rle 0) (u_ts s) /\ 0 <= u_pfn s /\ 0 <= u_pfs s.
Lemma fb_state s w : state_nonneg s -> state_nonneg (ud_set_feedback p s w).
Proof. unfold ud_set_feedback. destruct (neqb _ _); intro H; exact H. Qed.

Lemma year_nonneg s i : refreshed p s -> state_nonneg s -> nonneg_in i -> 0 <= u_rlamda (ud_set_feedback p s (i_w i)) ->
  (forall k, (k < ldtime p)%nat ->
     let x := year_acc p (ud_set_feedback p s (i_w i)) (i_nh i) (i_sh i) (i_vn i) (i_vs i) k in
     upwelling_not_reversed p (x_t1n x) /\ upwelling_not_reversed p (x_t1s x)) ->
  state_nonneg (fst (ud_year p s i)) /\ nonneg_out (snd (ud_year p s i)).
Proof.
  intros Href Hs (I1 & I2 & I3 & I4) Hrl Hu. apply (fb_state _ (i_w i)) in Hs. apply (set_feedback_refreshed p s (i_w i)) in Href.
  unfold ud_year. set (s1 := ud_set_feedback p s (i_w i)) in *. destruct Hs as (S1 & S2 & S3 & S4).
  pose proof (year_acc_nonneg s1 Href Hrl _ _ _ _ (ldtime p) (le_n _) S1 S2 S3 S4 I1 I2 I3 I4 Hu) as
    (N1 & N2 & N3 & N4 & N5 & N6 & N7 & N8 & N9 & N10).
  unfold ud_energy_budget. cbn [fst snd]. set (x := year_acc _ _ _ _ _ _ _) in *. split.
  - unfold state_nonneg. cbn [u_tn u_ts u_pfn u_pfs]. repeat split; assumption.
  - unfold nonneg_out. cbn [y_tn y_ts y_nh y_sh y_dtemp y_air_n y_air_s y_air y_sea_n y_sea_s y_sea y_ohctot].
    assert (Ho : 0 <= ohctot p (x_tn x) (x_ts x)).
    { rewrite <- (ohctot_zero (map (fun _ => 0) (x_tn x)) (map (fun _ => 0) (x_ts x))) by apply map0_zero.
      apply ohctot_mono; apply zeros_le; assumption. }
    rnum. repeat split; try assumption; lra.
Qed.

Lemma states_nonneg ins :
  (forall n, nonneg_in (ins n) /\ 0 <= u_rlamda (ud_set_feedback p (ud_states p ins (ud_init p) n) (i_w (ins n))) /\
     forall k, (k < ldtime p)%nat ->
       let x := year_acc p (ud_set_feedback p (ud_states p ins (ud_init p) n) (i_w (ins n)))
                  (i_nh (ins n)) (i_sh (ins n)) (i_vn (ins n)) (i_vs (ins n)) k in
       upwelling_not_reversed p (x_t1n x) /\ upwelling_not_reversed p (x_t1s x)) ->
  forall n, nonneg_out (snd (ud_year p (ud_states p ins (ud_init p) n) (ins n))).
Proof.
  intro H.
  assert (G : forall n, state_nonneg (ud_states p ins (ud_init p) n)).
  { induction n as [|n IH].
    - unfold state_nonneg. cbn [ud_states ud_init u_tn u_ts u_pfn u_pfs].
      repeat split; try (apply Forall_tab; intros; right; reflexivity); right; reflexivity.
    - cbn [ud_states]. destruct (H n) as (H1 & H2 & H3). apply year_nonneg; try assumption. apply states_refreshed. }
  intro n. destruct (H n) as (H1 & H2 & H3). apply year_nonneg; try assumption; [apply states_refreshed|apply G].
Qed.

(** ** monotone runs, constant upwelling *)
Hypothesis Hthr : threstemp p = 0.
Lemma wc_const t u : wcfac_of p t = wcfac_of p u.
Proof. unfold wcfac_of. rnum. destruct (Req_EM_T (threstemp p) 0); [reflexivity|contradiction]. Qed.
Lemma wc_range t : 0 <= wcfac_of p t <= W p / INR (ldtime p).
Proof.
  rewrite (wc_const t 0). rewrite wcfac_eq by apply (ad_ld _ Ha). apply upwell_range; try assumption; [lra|left; exact Hthr].
Qed.

Definition state_le (s s' : ud_state R) : Prop :=
  u_rlamda s' = u_rlamda s /\ Forall2 Rle (u_tn s) (u_tn s') /\ Forall2 Rle (u_ts s) (u_ts s') /\ u_pfn s <= u_pfn s' /\ u_pfs s <= u_pfs s'.
Definition acc_le (x y : acc R) : Prop :=
  Forall2 Rle (x_tn x) (x_tn y) /\ Forall2 Rle (x_ts x) (x_ts y) /\
  x_tempn x <= x_tempn y /\ x_temps x <= x_temps y /\ x_an x <= x_an y /\ x_as x <= x_as y /\ x_sn x <= x_sn y /\ x_ss x <= x_ss y.

Lemma year_acc_mono s s' i i' n : refreshed p s -> refreshed p s' -> 0 <= u_rlamda s -> state_le s s' -> in_le i i' ->
  (n <= ldtime p)%nat ->
  acc_le (year_acc p s (i_nh i) (i_sh i) (i_vn i) (i_vs i) n) (year_acc p s' (i_nh i') (i_sh i') (i_vn i') (i_vs i') n).
Proof.
  intros Href Href' Hrl (E & L1 & L2 & L3 & L4) (Ei & I1 & I2 & I3 & I4) Hn.
  assert (Egn : u_gamn s' = u_gamn s) by (rewrite (rf_gamn _ _ Href), (rf_gamn _ _ Href'), E; reflexivity).
  assert (Egs : u_gams s' = u_gams s) by (rewrite (rf_gams _ _ Href), (rf_gams _ _ Href'), E; reflexivity).
  assert (Ef : u_fnx s' = u_fnx s) by (rewrite (rf_fnx _ _ Href), (rf_fnx _ _ Href'), E; reflexivity).
  assert (Efs : u_fsx s' = u_fsx s) by (rewrite (rf_fsx _ _ Href), (rf_fsx _ _ Href'), E; reflexivity).
  induction n as [|n IH].
  - unfold acc_le. cbn. repeat split; try assumption; lra.
  - rewrite !year_acc_S. specialize (IH ltac:(lia)).
    set (x := year_acc p s (i_nh i) (i_sh i) (i_vn i) (i_vs i) n) in *.
    set (y := year_acc p s' (i_nh i') (i_sh i') (i_vn i') (i_vs i') n) in *.
    destruct IH as (N1 & N2 & N5 & N6 & N7 & N8 & N9 & N10).
    assert (Hx : acc_ok p s x) by (apply year_acc_ok; exact Href). assert (Hy : acc_ok p s' y) by (apply year_acc_ok; exact Href').
    assert (Q1 : sub_dqn p s (i_nh i) (i_vn i) n <= sub_dqn p s' (i_nh i') (i_vn i') n).
    { unfold sub_dqn. rewrite (Forall2_len _ _ _ I3). apply dq_mono; assumption || lia. }
    assert (Q2 : sub_dqs p s (i_sh i) (i_vn i) (i_vs i) n <= sub_dqs p s' (i_sh i') (i_vn i') (i_vs i') n).
    { unfold sub_dqs. rewrite (Forall2_len _ _ _ I3). apply dq_mono; assumption || lia. }
    rewrite !substep_eq by assumption.
    destruct (step_mono p Ha Hst s s' Href Hrl Egn Egs (i_nh i) (i_sh i) (i_nh i') (i_sh i') (i_vn i) (i_vs i) (i_vn i') (i_vs i') x y n
      N1 N2 (wc_const _ _) (wc_const _ _) (wc_range _) (wc_range _) Q1 Q2) as [T1 T2].
    destruct (fx_ok p Ha s Href Hrl) as (X1 & X2 & X3 & X4).
    pose proof (ad_foan _ Ha) as Fn. pose proof (ad_foas _ Ha) as Fs. pose proof (st_foan _ Hst). pose proof (st_foas _ Hst).
    pose proof (Forall2_nth _ _ 0 T1) as M1. pose proof (Forall2_nth _ _ 0 T2) as M2.
    assert (Y1 : new_air_n p s (i_nh i) (i_sh i) (i_vn i) (i_vs i) x n <= new_air_n p s' (i_nh i') (i_sh i') (i_vn i') (i_vs i') y n).
    { unfold new_air_n. rewrite Ef, Efs. apply air_mono; assumption. }
    assert (Y2 : new_air_s p s (i_nh i) (i_sh i) (i_vn i) (i_vs i) x n <= new_air_s p s' (i_nh i') (i_sh i') (i_vn i') (i_vs i') y n).
    { unfold new_air_s. rewrite Ef, Efs. apply air_mono; assumption. }
    assert (HL : 0 < / INR (ldtime p)) by (apply Rinv_0_lt_compat, L_pos, Ha).
    unfold acc_le. cbn [x_tn x_ts x_t1n x_t1s x_tempn x_temps x_an x_as x_sn x_ss].
    repeat split; try assumption; apply Rplus_le_compat; try assumption; unfold Rdiv; apply Rmult_le_compat_r; try lra;
      apply Rplus_le_compat; apply Rmult_le_compat_l; lra.
Qed.

Lemma year_mono s s' i i' : refreshed p s -> refreshed p s' -> state_le s s' -> in_le i i' ->
  0 <= u_rlamda (ud_set_feedback p s (i_w i)) ->
  state_le (fst (ud_year p s i)) (fst (ud_year p s' i')) /\ out_le (snd (ud_year p s i)) (snd (ud_year p s' i')).
Proof.
  intros Href Href' Hle Hin Hrl.
  assert (Hle' : state_le (ud_set_feedback p s (i_w i)) (ud_set_feedback p s' (i_w i'))).
  { destruct Hin as (Ew & _). rewrite <- Ew. destruct Hle as (E1 & E2 & E3 & E4 & E5). unfold ud_set_feedback.
    destruct (neqb _ _); unfold state_le; cbn [with_feedback u_rlamda u_tn u_ts u_pfn u_pfs]; repeat split; assumption. }
  pose proof (set_feedback_refreshed p s (i_w i) Href) as R1. pose proof (set_feedback_refreshed p s' (i_w i') Href') as R2.
  unfold ud_year. set (s1 := ud_set_feedback p s (i_w i)) in *. set (s2 := ud_set_feedback p s' (i_w i')) in *.
  destruct (year_acc_mono s1 s2 i i' (ldtime p) R1 R2 Hrl Hle' Hin (le_n _)) as (N1 & N2 & N5 & N6 & N7 & N8 & N9 & N10).
  destruct Hle' as (E & _). destruct Hin as (_ & I1 & I2 & _).
  unfold ud_energy_budget. cbn [fst snd].
  set (x := year_acc p s1 _ _ _ _ _) in *. set (y := year_acc p s2 _ _ _ _ _) in *. split.
  - unfold state_le. cbn [u_rlamda u_tn u_ts u_pfn u_pfs]. repeat split; assumption.
  - unfold out_le, profile_le. cbn [y_tn y_ts y_nh y_sh y_dtemp y_air_n y_air_s y_air y_sea_n y_sea_s y_sea y_ohctot]. rnum.
    repeat split; try assumption; try lra. apply ohctot_mono; assumption.
Qed.
Lemma rl_states ins n : delta_aero p = 0 -> u_rlamda (ud_states p ins (ud_init p) n) = 1 / lambda p.
Proof.
  intro H. induction n as [|n IH]; [reflexivity|]. cbn [ud_states ud_year ud_energy_budget fst u_rlamda].
  unfold ud_year, ud_energy_budget. cbn [fst u_rlamda]. rewrite set_feedback_rlamda. destruct (Req_EM_T (delta_aero p) 0); [exact IH|contradiction].
Qed.
Lemma rl_feedback ins n w : u_rlamda (ud_set_feedback p (ud_states p ins (ud_init p) n) w) = feedback p w.
Proof.
  rewrite set_feedback_rlamda. unfold feedback. destruct (Req_EM_T (delta_aero p) 0) as [E|E]; [|reflexivity].
  apply rl_states. exact E.
Qed.
Lemma Forall2_refl (l : list R) : Forall2 Rle l l.
Proof. induction l; constructor; [lra|assumption]. Qed.
Lemma states_mono ins ins' : (forall n, in_le (ins n) (ins' n) /\ 0 <= feedback p (i_w (ins n))) ->
  forall n, out_le (snd (ud_year p (ud_states p ins (ud_init p) n) (ins n))) (snd (ud_year p (ud_states p ins' (ud_init p) n) (ins' n))).
Proof.
  intro H.
  assert (G : forall n, state_le (ud_states p ins (ud_init p) n) (ud_states p ins' (ud_init p) n)).
  { induction n as [|n IH].
    - unfold state_le. cbn [ud_states]. repeat split; try apply Forall2_refl; lra.
    - cbn [ud_states]. destruct (H n) as (H1 & H2).
      apply year_mono; try assumption; try apply states_refreshed. rewrite rl_feedback. exact H2. }
  intro n. destruct (H n) as (H1 & H2). apply year_mono; try assumption; try apply states_refreshed; [apply G|].
  rewrite rl_feedback. exact H2.
Qed.
End Pos.
