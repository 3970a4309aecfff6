(** * P_Carbon5: feedback functions (C30) and the ocean pressure curve (C31) *)
From Coq Require Import Reals ZArith List Bool Lra Lia Psatz.
From Verif Require Import Num M_Carbon Spec_UDM Spec_Carbon.
Import ListNotations.
Open Scope R_scope.

Lemma sigmoid_range (x c w : R) : 0 < sigmoid_gen x c w < 1.
Proof.
  unfold sigmoid_gen. rnum. pose proof (exp_pos (- ((x - c) / w))) as H. split.
  - apply Rdiv_lt_0_compat; lra.
  - apply (Rmult_lt_reg_r (1 + exp (- ((x - c) / w)))); [lra|]. unfold Rdiv. rewrite Rmult_assoc, Rinv_l by lra. lra.
Qed.
Lemma sigmoid_mono (x y c w : R) : 0 < w -> x <= y -> sigmoid_gen x c w <= sigmoid_gen y c w.
Proof.
  intros Hw H. unfold sigmoid_gen. rnum. unfold Rdiv at 1 3. rewrite !Rmult_1_l. apply Rinv_le_contravar.
  - pose proof (exp_pos (- ((y - c) / w))). lra.
  - apply Rplus_le_compat_l. assert (- ((y - c) / w) <= - ((x - c) / w)).
    { apply Ropp_le_contravar. apply Rmult_le_compat_r; [apply Rlt_le, Rinv_0_lt_compat, Hw|lra]. }
    destruct (Rle_lt_or_eq_dec _ _ H0) as [L|E]; [apply Rlt_le, exp_increasing, L|rewrite E; lra].
Qed.
Lemma threshold_range (x c w : R) : 0 < threshold_gen x c w < 1.
Proof. pose proof (sigmoid_range x c w) as H. unfold threshold_gen, sigmoid_gen in *. rnum. lra. Qed.

Lemma npp_zero p : fnpp_from_temp p 0 = 60.
Proof.
  unfold fnpp_from_temp. cbv zeta. pose proof (sigmoid_range 0 (t_half p) (w_sigmoid p)). pose proof (threshold_range 0 (t_threshold p) (w_threshold p)).
  change (@nofZ R RNum 0) with 0. set (a := sigmoid_gen 0 _ _) in *. set (b := threshold_gen 0 _ _) in *. clearbody a b. rnum. field. lra.
Qed.
Lemma npp_pos p t : 0 < fnpp_from_temp p t.
Proof.
  unfold fnpp_from_temp. cbv zeta. pose proof (sigmoid_range 0 (t_half p) (w_sigmoid p)). pose proof (threshold_range 0 (t_threshold p) (w_threshold p)).
  pose proof (sigmoid_range t (t_half p) (w_sigmoid p)). pose proof (threshold_range t (t_threshold p) (w_threshold p)).
  change (@nofZ R RNum 0) with 0. set (a := sigmoid_gen 0 _ _) in *. set (b := threshold_gen 0 _ _) in *. clearbody a b. rnum.
  assert (0 < a * b) by (apply Rmult_lt_0_compat; lra). apply Rmult_lt_0_compat; [apply Rmult_lt_0_compat; [apply Rdiv_lt_0_compat; lra|]|]; lra.
Qed.

Lemma sol_eq p t : solubility_temp_feedback p t = Rmin (exp (- solubility_sens p * t)) (1 + solubility_limit p).
Proof.
  unfold solubility_temp_feedback, nclip. rnum. pose proof (exp_pos (- solubility_sens p * t)).
  destruct (Rlt_dec (exp (- solubility_sens p * t)) 0) as [L|L]; [lra|].
  unfold Rmin. destruct (Rlt_dec _ _), (Rle_dec _ _); lra.
Qed.
Lemma sol_zero p : 0 <= solubility_limit p -> solubility_temp_feedback p 0 = 1.
Proof. intro H. rewrite sol_eq, Rmult_0_r, exp_0. apply Rmin_left. lra. Qed.
Lemma sol_range p t : 0 <= solubility_limit p -> 0 < solubility_temp_feedback p t <= 1 + solubility_limit p.
Proof. intro H. rewrite sol_eq. split; [apply Rmin_glb_lt; [apply exp_pos|lra]|apply Rmin_r]. Qed.
Lemma sol_mono p : 0 <= solubility_sens p -> nonincreasing (solubility_temp_feedback p).
Proof.
  intros Hs x y H. rewrite !sol_eq. apply Rle_min_compat_r.
  assert (L : - solubility_sens p * y <= - solubility_sens p * x) by nra.
  destruct (Rle_lt_or_eq_dec _ _ L) as [Q|E]; [apply Rlt_le, exp_increasing, Q|rewrite E; lra].
Qed.

Lemma ml_eq p t : mixed_layer_temp_feedback p t =
  Rmax (mixed_carbon p * (1 - ml_fracmax p * sigmoid_gen t (ml_t_half p) (ml_w_sigmoid p))
        / (1 - ml_fracmax p * sigmoid_gen 0 (ml_t_half p) (ml_w_sigmoid p))) (ml_depth_min p).
Proof.
  unfold mixed_layer_temp_feedback. cbv zeta. change (@nofZ R RNum 0) with 0.
  set (a := sigmoid_gen t _ _). set (b := sigmoid_gen 0 _ _). clearbody a b. rnum. unfold Rmax.
  destruct (Rlt_dec _ _), (Rle_dec _ _); lra.
Qed.
Lemma ml_base p : 0 <= ml_fracmax p <= 1 -> 0 < 1 - ml_fracmax p * sigmoid_gen 0 (ml_t_half p) (ml_w_sigmoid p).
Proof. intro H. pose proof (sigmoid_range 0 (ml_t_half p) (ml_w_sigmoid p)). nra. Qed.
Lemma ml_zero p : 0 <= ml_fracmax p <= 1 -> mixed_layer_temp_feedback p 0 = Rmax (mixed_carbon p) (ml_depth_min p).
Proof. intro H. rewrite ml_eq. f_equal. field. pose proof (ml_base p H). lra. Qed.
Lemma ml_mono p : 0 <= ml_fracmax p <= 1 -> 0 < ml_w_sigmoid p -> 0 <= mixed_carbon p -> nonincreasing (mixed_layer_temp_feedback p).
Proof.
  intros Hf Hw Hm x y H. rewrite !ml_eq. apply Rle_max_compat_r. pose proof (ml_base p Hf) as B.
  pose proof (sigmoid_mono x y (ml_t_half p) (ml_w_sigmoid p) Hw H) as S.
  unfold Rdiv. apply Rmult_le_compat_r; [apply Rlt_le, Rinv_0_lt_compat, B|]. apply Rmult_le_compat_l; [exact Hm|]. nra.
Qed.
Lemma ml_min p t : ml_depth_min p <= mixed_layer_temp_feedback p t.
Proof. rewrite ml_eq. apply Rmax_r. Qed.

(** ** The pressure curve *)
Lemma zmax_eq : (Z_CO2_MAX : R) = 2935 / 10.
Proof. unfold Z_CO2_MAX. rnum. rdec. reflexivity. Qed.
Definition P (z : R) : R :=
  13021 / 10000 * z + 37929 / 10000000 * z ^ 2 + 91193 / 10000000000 * z ^ 3
  + 1488 / 100000000000 * z ^ 4 + 12425 / 100000000000000 * z ^ 5.
Lemma poly_eq z : pco2_poly z = P z.
Proof. unfold pco2_poly, P. rnum. rdec. ring. Qed.
Lemma slope_eq : DPCO2_DZ_AT_MAX = poly_slope (2935 / 10).
Proof. unfold DPCO2_DZ_AT_MAX, poly_slope. cbv zeta. rewrite zmax_eq. generalize (2935 / 10). intro m. rnum. rdec. ring. Qed.
Definition Lg (z : R) : R := P (2935 / 10) + poly_slope (2935 / 10) * (2935 / 10) * ln (z / (2935 / 10)).
Lemma ocean_eq z : pco2_ocean z = if Rle_dec z (2935 / 10) then P z else Lg z.
Proof.
  unfold pco2_ocean, PCO2_AT_MAX. rewrite zmax_eq, !poly_eq, slope_eq. unfold Lg. generalize (2935 / 10). intro m. rnum.
  destruct (Rle_dec z m); reflexivity.
Qed.

Lemma P_deriv z : derivable_pt_lim P z (poly_slope z).
Proof.
  assert (Q : forall c n x, derivable_pt_lim (fun u => c * u ^ n) x (c * (INR n * x ^ pred n))).
  { intros c n x. apply (derivable_pt_lim_scal (fun u => u ^ n)). apply derivable_pt_lim_pow. }
  assert (PE : forall u, P u = 13021 / 10000 * u ^ 1 + 37929 / 10000000 * u ^ 2 + 91193 / 10000000000 * u ^ 3
    + 1488 / 100000000000 * u ^ 4 + 12425 / 100000000000000 * u ^ 5) by (intro u; unfold P; ring).
  replace (poly_slope z) with (13021 / 10000 * (INR 1 * z ^ pred 1) + 37929 / 10000000 * (INR 2 * z ^ pred 2) + 91193 / 10000000000 * (INR 3 * z ^ pred 3)
    + 1488 / 100000000000 * (INR 4 * z ^ pred 4) + 12425 / 100000000000000 * (INR 5 * z ^ pred 5)).
  2: { unfold poly_slope. cbn [pred]. change (INR 1) with 1. replace (INR 2) with 2 by (cbn; lra). replace (INR 3) with 3 by (cbn; lra).
       replace (INR 4) with 4 by (cbn; lra). replace (INR 5) with 5 by (cbn; lra). ring. }
  pose proof (derivable_pt_lim_plus _ _ z _ _ (Q (13021 / 10000) 1%nat z) (Q (37929 / 10000000) 2%nat z)) as A1.
  pose proof (derivable_pt_lim_plus _ _ z _ _ A1 (Q (91193 / 10000000000) 3%nat z)) as A2.
  pose proof (derivable_pt_lim_plus _ _ z _ _ A2 (Q (1488 / 100000000000) 4%nat z)) as A3.
  pose proof (derivable_pt_lim_plus _ _ z _ _ A3 (Q (12425 / 100000000000000) 5%nat z)) as A4.
  intros eps He. destruct (A4 eps He) as [dl Hd]. exists dl. intros h H0 H1. specialize (Hd h H0 H1).
  rewrite !PE. exact Hd.
Qed.
Lemma poly_slope_pos z : 0 < poly_slope z.
Proof.
  unfold poly_slope.
  assert (H1 : 0 <= z ^ 2 * (5 * (12425 / 100000000000000) * z ^ 2 + 4 * (1488 / 100000000000) * z + 2 / 1000000)).
  { apply Rmult_le_pos; [apply pow2_ge_0|].
    replace (5 * (12425 / 100000000000000) * z ^ 2 + 4 * (1488 / 100000000000) * z + 2 / 1000000)
      with (62125 / 100000000000000 * ((z + 2976 / 62125 * 1000) ^ 2) + (2 / 1000000 - 62125 / 100000000000000 * (2976 / 62125 * 1000) ^ 2)) by field.
    apply Rplus_le_le_0_compat; [|lra]. apply Rmult_le_pos; [lra|apply pow2_ge_0]. }
  assert (H2 : 0 < 13021 / 10000 + 2 * (37929 / 10000000) * z + (3 * (91193 / 10000000000) - 2 / 1000000) * z ^ 2).
  { replace (13021 / 10000 + 2 * (37929 / 10000000) * z + (3 * (91193 / 10000000000) - 2 / 1000000) * z ^ 2)
      with (253579 / 10000000000 * (z + 37929000 / 253579) ^ 2 + (13021 / 10000 - 253579 / 10000000000 * (37929000 / 253579) ^ 2)) by field.
    apply Rplus_le_lt_0_compat; [|lra]. apply Rmult_le_pos; [lra|apply pow2_ge_0]. }
  lra.
Qed.
Lemma Lg_deriv z : 0 < z -> derivable_pt_lim Lg z (poly_slope (2935 / 10) * (2935 / 10) / z).
Proof.
  intro Hz. unfold Lg. set (c := poly_slope (2935 / 10) * (2935 / 10)). set (q := P (2935 / 10)).
  assert (Ll : derivable_pt_lim (fun u => ln (u / (2935 / 10))) z (/ z)).
  { pose proof (derivable_pt_lim_comp (fun u => / (2935 / 10) * u) ln z (/ (2935 / 10) * 1) (/ (/ (2935 / 10) * z))) as D.
    assert (D1 : derivable_pt_lim (fun u => / (2935 / 10) * u) z (/ (2935 / 10) * 1)) by (apply (derivable_pt_lim_scal id), derivable_pt_lim_id).
    assert (Hp : 0 < / (2935 / 10) * z) by (apply Rmult_lt_0_compat; lra).
    specialize (D D1 (derivable_pt_lim_ln _ Hp)).
    replace (/ (/ (2935 / 10) * z) * (/ (2935 / 10) * 1)) with (/ z) in D by (field; lra).
    intros eps He. destruct (D eps He) as [dl Hd]. exists dl. intros h H0 H1. specialize (Hd h H0 H1). unfold comp in Hd.
    unfold Rdiv in *. rewrite !(Rmult_comm _ (/ (2935 * / 10))). exact Hd. }
  replace (c / z) with (0 + c * / z) by (unfold Rdiv; ring).
  apply (derivable_pt_lim_plus (fun _ => q) (fun u => c * ln (u / (2935 / 10)))); [apply derivable_pt_lim_const|].
  apply (derivable_pt_lim_scal (fun u => ln (u / (2935 / 10)))). exact Ll.
Qed.

(** gluing two functions at [m] *)
Lemma glue_deriv (f g k : R -> R) (m z lf lg : R) :
  (forall u, k u = if Rle_dec u m then f u else g u) -> f m = g m ->
  (z <= m -> derivable_pt_lim f z lf) -> (m <= z -> derivable_pt_lim g z lg) -> (z = m -> lf = lg) ->
  derivable_pt_lim k z (if Rle_dec z m then lf else lg).
Proof.
  intros Hk Hm Hf Hg Hl. destruct (Rle_dec z m) as [L|L].
  - destruct (Rle_lt_or_eq_dec _ _ L) as [S|E].
    + intros eps He. destruct (Hf L eps He) as [dl Hd].
      assert (Hmin : 0 < Rmin dl (m - z)) by (apply Rmin_glb_lt; [apply cond_pos|lra]).
      exists (mkposreal _ Hmin). cbn [pos]. intros h H0 H1.
      assert (Rabs h < dl) by (eapply Rlt_le_trans; [exact H1|apply Rmin_l]).
      assert (Rabs h < m - z) by (eapply Rlt_le_trans; [exact H1|apply Rmin_r]).
      assert (h < m - z) by (eapply Rle_lt_trans; [apply Rle_abs|assumption]).
      rewrite !Hk. destruct (Rle_dec (z + h) m); [|lra]. destruct (Rle_dec z m); [|lra]. apply Hd; assumption.
    + subst z. intros eps He. destruct (Hf L eps He) as [d1 H1]. destruct (Hg L eps He) as [d2 H2].
      assert (Hmin : 0 < Rmin d1 d2) by (apply Rmin_glb_lt; apply cond_pos).
      exists (mkposreal _ Hmin). cbn [pos]. intros h Hh Hb.
      rewrite !Hk. destruct (Rle_dec m m) as [_|]; [|lra]. destruct (Rle_dec (m + h) m).
      * apply H1; [exact Hh|]. eapply Rlt_le_trans; [exact Hb|apply Rmin_l].
      * rewrite (Hl eq_refl), Hm. apply H2; [exact Hh|]. eapply Rlt_le_trans; [exact Hb|apply Rmin_r].
  - intros eps He. assert (G : m < z) by lra. destruct (Hg ltac:(lra) eps He) as [dl Hd].
    assert (Hmin : 0 < Rmin dl (z - m)) by (apply Rmin_glb_lt; [apply cond_pos|lra]).
    exists (mkposreal _ Hmin). cbn [pos]. intros h H0 H1.
    assert (Rabs h < dl) by (eapply Rlt_le_trans; [exact H1|apply Rmin_l]).
    assert (Rabs h < z - m) by (eapply Rlt_le_trans; [exact H1|apply Rmin_r]).
    assert (- h < z - m) by (eapply Rle_lt_trans; [apply Rle_abs|rewrite Rabs_Ropp; assumption]).
    rewrite !Hk. destruct (Rle_dec (z + h) m); [lra|]. destruct (Rle_dec z m); [lra|]. apply Hd; assumption.
Qed.

Lemma Lg_join : P (2935 / 10) = Lg (2935 / 10).
Proof. unfold Lg. replace (2935 / 10 / (2935 / 10)) with 1 by lra. rewrite ln_1. lra. Qed.

Lemma ocean_deriv z : derivable_pt_lim pco2_ocean z (pco2_slope z).
Proof.
  unfold pco2_slope. apply (glue_deriv P Lg pco2_ocean (2935 / 10) z).
  - exact ocean_eq.
  - apply Lg_join.
  - intros _. apply P_deriv.
  - intro H. apply Lg_deriv. lra.
  - intro E. subst z. generalize (poly_slope (2935 / 10)). intro c. field.
Qed.
Lemma ocean_slope_pos z : 0 < pco2_slope z.
Proof.
  unfold pco2_slope. destruct (Rle_dec z (2935 / 10)) as [L|L]; [apply poly_slope_pos|].
  apply Rdiv_lt_0_compat; [|lra]. apply Rmult_lt_0_compat; [apply poly_slope_pos|lra].
Qed.
Lemma ocean_increasing : strictly_increasing pco2_ocean.
Proof.
  intros x y H. destruct (MVT_cor2 pco2_ocean pco2_slope x y H) as (c & E & _); [intros c _; apply ocean_deriv|].
  pose proof (ocean_slope_pos c). nra.
Qed.
Lemma glue_cont (f g k : R -> R) (m z : R) :
  (forall u, k u = if Rle_dec u m then f u else g u) -> f m = g m ->
  (z <= m -> continuity_pt f z) -> (m <= z -> continuity_pt g z) -> continuity_pt k z.
Proof.
  intros Hk Hm Hf Hg eps He. unfold dist; cbn [R_met]. unfold R_dist.
  assert (Cf : z <= m -> exists a, a > 0 /\ forall x, Rabs (x - z) < a -> Rabs (f x - f z) < eps).
  { intro L. destruct (Hf L eps He) as (a & Ha & H). exists a. split; [exact Ha|]. intros x Hx.
    destruct (Req_EM_T x z) as [E|NE]; [subst; rewrite Rminus_diag_eq by reflexivity; rewrite Rabs_R0; exact He|].
    apply (H x). split; [split; [exact I|congruence]|exact Hx]. }
  assert (Cg : m <= z -> exists a, a > 0 /\ forall x, Rabs (x - z) < a -> Rabs (g x - g z) < eps).
  { intro L. destruct (Hg L eps He) as (a & Ha & H). exists a. split; [exact Ha|]. intros x Hx.
    destruct (Req_EM_T x z) as [E|NE]; [subst; rewrite Rminus_diag_eq by reflexivity; rewrite Rabs_R0; exact He|].
    apply (H x). split; [split; [exact I|congruence]|exact Hx]. }
  destruct (Rtotal_order z m) as [L|[E|G]].
  - destruct (Cf ltac:(lra)) as (a & Ha & H). exists (Rmin a (m - z)). split; [apply Rmin_glb_lt; lra|]. intros x [_ Hx].
    assert (X1 : Rabs (x - z) < a) by (eapply Rlt_le_trans; [exact Hx|apply Rmin_l]).
    assert (X2 : Rabs (x - z) < m - z) by (eapply Rlt_le_trans; [exact Hx|apply Rmin_r]).
    assert (x - z < m - z) by (eapply Rle_lt_trans; [apply Rle_abs|exact X2]).
    rewrite !Hk. destruct (Rle_dec x m); [|lra]. destruct (Rle_dec z m); [|lra]. apply H, X1.
  - subst z. destruct (Cf ltac:(lra)) as (a & Ha & H). destruct (Cg ltac:(lra)) as (b & Hb & H').
    exists (Rmin a b). split; [apply Rmin_glb_lt; lra|]. intros x [_ Hx].
    assert (X1 : Rabs (x - m) < a) by (eapply Rlt_le_trans; [exact Hx|apply Rmin_l]).
    assert (X2 : Rabs (x - m) < b) by (eapply Rlt_le_trans; [exact Hx|apply Rmin_r]).
    rewrite !Hk. destruct (Rle_dec m m); [|lra]. destruct (Rle_dec x m); [apply H, X1|]. rewrite Hm. apply H', X2.
  - destruct (Cg ltac:(lra)) as (a & Ha & H). exists (Rmin a (z - m)). split; [apply Rmin_glb_lt; lra|]. intros x [_ Hx].
    assert (X1 : Rabs (x - z) < a) by (eapply Rlt_le_trans; [exact Hx|apply Rmin_l]).
    assert (X2 : Rabs (x - z) < z - m) by (eapply Rlt_le_trans; [exact Hx|apply Rmin_r]).
    assert (- (x - z) < z - m) by (eapply Rle_lt_trans; [apply Rle_abs|rewrite Rabs_Ropp; exact X2]).
    rewrite !Hk. destruct (Rle_dec x m); [lra|]. destruct (Rle_dec z m); [lra|]. apply H, X1.
Qed.
Lemma ocean_slope_cont : continuity pco2_slope.
Proof.
  intro z. apply (glue_cont poly_slope (fun z => poly_slope (2935 / 10) * (2935 / 10) / z) pco2_slope (2935 / 10)).
  - intro u. reflexivity.
  - generalize (poly_slope (2935 / 10)). intro c. field.
  - intros _. unfold poly_slope. reg.
  - intro H. generalize (poly_slope (2935 / 10) * (2935 / 10)). intro c. reg. lra.
Qed.

Lemma feedbacks p : cc_admissible p ->
  fnpp_from_temp p 0 = 60 /\ (forall t, 0 < fnpp_from_temp p t) /\
  mixed_layer_temp_feedback p 0 = Rmax (mixed_carbon p) (ml_depth_min p) /\
  nonincreasing (mixed_layer_temp_feedback p) /\ (forall t, ml_depth_min p <= mixed_layer_temp_feedback p t) /\
  solubility_temp_feedback p 0 = 1 /\ nonincreasing (solubility_temp_feedback p) /\
  (forall t, 0 < solubility_temp_feedback p t <= 1 + solubility_limit p).
Proof.
  intros [H1 H2 H3 H4 H5 H6 H7 H8]. split; [apply npp_zero|]. split; [apply npp_pos|]. split; [apply ml_zero; assumption|].
  split; [apply ml_mono; try assumption; lra|]. split; [intro; apply ml_min|]. split; [apply sol_zero; assumption|].
  split; [apply sol_mono; assumption|]. intro t. apply sol_range. assumption.
Qed.
Lemma ocean_zero : pco2_ocean (0 : R) = 0.
Proof. rewrite ocean_eq. destruct (Rle_dec 0 (2935 / 10)); [|lra]. unfold P. ring. Qed.
Lemma warming_pressure p t t' z : cc_admissible p -> t <= t' -> 0 <= z ->
  solubility_temp_feedback p t' * pco2_ocean z <= solubility_temp_feedback p t * pco2_ocean z.
Proof.
  intros [H1 H2 H3 H4 H5 H6 H7 H8] Ht Hz. apply Rmult_le_compat_r; [|apply sol_mono; assumption].
  destruct (Rle_lt_or_eq_dec _ _ Hz) as [L|E]; [|subst z; rewrite ocean_zero; lra]. pose proof (ocean_increasing 0 z L). rewrite ocean_zero in *. lra.
Qed.
Lemma pressure_curve :
  (forall z, derivable_pt_lim pco2_ocean z (pco2_slope z)) /\ continuity pco2_slope /\
  (forall z, 0 < pco2_slope z) /\ strictly_increasing pco2_ocean /\ pco2_ocean (0 : R) = 0.
Proof.
  split; [exact ocean_deriv|]. split; [exact ocean_slope_cont|]. split; [exact ocean_slope_pos|]. split; [exact ocean_increasing|exact ocean_zero].
Qed.
Lemma pressure_example : pco2_ocean 100 = 1799888 / 10000 /\ pco2_slope 587 = pco2_slope (2935 / 10) / 2.
Proof.
  split.
  - rewrite ocean_eq. destruct (Rle_dec 100 (2935 / 10)); [|lra]. unfold P. lra.
  - unfold pco2_slope. destruct (Rle_dec 587 (2935 / 10)); [lra|]. destruct (Rle_dec (2935 / 10) (2935 / 10)); [|lra].
    generalize (poly_slope (2935 / 10)). intro c. field.
Qed.
