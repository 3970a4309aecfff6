(** * P_Gas: the yearly concentration step (C37, C38) and methane lifetime (C40) *)
From Coq Require Import Reals Lra Psatz.
From Verif Require Import PyBase PyBaseFacts Num M_Gas Spec_Gas Spec_Carbon.
Open Scope R_scope.

Lemma scalar_R beta q em prev : q <> 0 -> beta <> 0 ->
  scalar_step beta q em prev = em / beta / q + (prev - em / beta / q) * exp (- q).
Proof. intros; unfold scalar_step; rnum; reflexivity. Qed.

Lemma vec_R g em prev : g_tau1 g <> 0 -> g_beta g <> 0 ->
  vec_step g em prev = equilibrium g em + (prev - equilibrium g em) * exp (- (1 / g_tau1 g)).
Proof.
  intros Ht Hb. unfold vec_step, equilibrium; rnum. field. auto.
Qed.

Lemma c37_same g em prev : g_tau1 g <> 0 -> g_beta g <> 0 ->
  vec_step g em prev = scalar_step (g_beta g) (1 / g_tau1 g) (em + g_nat g) prev.
Proof.
  intros Ht Hb. rewrite vec_R by auto. unfold scalar_step, equilibrium; rnum. field. auto.
Qed.

Definition solution (E beta q c0 t : R) : R := E / beta / q + (c0 - E / beta / q) * exp (- q * t).

Lemma solution_deriv E beta q c0 t : q <> 0 ->
  derivable_pt_lim (solution E beta q c0) t (E / beta - q * solution E beta q c0 t).
Proof.
  intros Hq. unfold solution.
  replace (E / beta - q * (E / beta / q + (c0 - E / beta / q) * exp (- q * t)))
    with (0 + (c0 - E / beta / q) * (exp (- q * t) * (- q * 1))).
  2:{ generalize (E / beta) as b; intros b. field. auto. }
  apply derivable_pt_lim_plus; [apply derivable_pt_lim_const|].
  apply (derivable_pt_lim_scal (fun t => exp (- q * t))).
  apply (derivable_pt_lim_comp (fun t => - q * t) exp).
  - apply (derivable_pt_lim_scal (fun t => t)). apply derivable_pt_lim_id.
  - apply derivable_pt_lim_exp.
Qed.

Lemma c37_exists beta q em prev : q <> 0 -> beta <> 0 ->
  exists c, decays em beta q c /\ c 0 = prev /\ c 1 = scalar_step beta q em prev.
Proof.
  intros Hq Hb. exists (solution em beta q prev). split; [|split].
  - intros t _. apply solution_deriv; auto.
  - unfold solution. rewrite Rmult_0_r, exp_0. ring.
  - rewrite scalar_R by auto. unfold solution. rewrite Rmult_1_r. reflexivity.
Qed.

Lemma c37_unique beta q em prev c : q <> 0 -> beta <> 0 -> decays em beta q c -> c 0 = prev ->
  c 1 = scalar_step beta q em prev.
Proof.
  intros Hq Hb Hd H0.
  set (k := em / beta / q).
  assert (Hk : q * k = em / beta) by (unfold k; field; auto).
  pose (w := fun t => (c t - k) * exp (q * t)).
  assert (Hw : forall t, 0 <= t <= 1 -> derivable_pt_lim w t 0).
  { intros t Ht. unfold w.
    replace 0 with ((em / beta - q * c t - 0) * exp (q * t) + (c t - k) * (exp (q * t) * (q * 1))).
    2:{ rewrite <- Hk. ring. }
    apply (derivable_pt_lim_mult (fun t => c t - k) (fun t => exp (q * t))).
    - apply (derivable_pt_lim_minus c (fun _ => k)); [apply Hd; auto|apply derivable_pt_lim_const].
    - apply (derivable_pt_lim_comp (fun t => q * t) exp); [|apply derivable_pt_lim_exp].
      apply (derivable_pt_lim_scal (fun t => t)). apply derivable_pt_lim_id. }
  destruct (MVT_cor2 w (fun _ => 0) 0 1 ltac:(lra) Hw) as [x [E _]].
  assert (W : w 1 = w 0) by lra.
  unfold w in W. rewrite Rmult_0_r, exp_0, !Rmult_1_r, H0 in W.
  rewrite scalar_R by auto. fold k. rewrite <- W.
  rewrite Rmult_assoc, <- exp_plus. replace (q + - q) with 0 by ring. rewrite exp_0. ring.
Qed.

(** ** C38 *)
Lemma exp_neg_01 x : 0 < x -> 0 < exp (- x) < 1.
Proof.
  intros H. split; [apply exp_pos|]. replace 1 with (exp 0) by apply exp_0. apply exp_increasing. lra.
Qed.
Lemma rate_pos t : 0 < t -> 0 < 1 / t.
Proof. intros H. unfold Rdiv. rewrite Rmult_1_l. apply Rinv_0_lt_compat; auto. Qed.

Lemma convex_between e x y : 0 < e < 1 -> Rmin x y <= y + (x - y) * e <= Rmax x y.
Proof.
  intros He. unfold Rmin, Rmax. destruct (Rle_dec x y); nra.
Qed.

Lemma c38_between g em prev : 0 < g_tau1 g -> g_beta g <> 0 ->
  Rmin prev (equilibrium g em) <= vec_step g em prev <= Rmax prev (equilibrium g em).
Proof.
  intros Ht Hb. rewrite vec_R by (auto; lra). apply convex_between. apply exp_neg_01, rate_pos; auto.
Qed.
Lemma c38_strict g em prev : 0 < g_tau1 g -> g_beta g <> 0 -> prev <> equilibrium g em ->
  Rmin prev (equilibrium g em) < vec_step g em prev < Rmax prev (equilibrium g em).
Proof.
  intros Ht Hb Hne. rewrite vec_R by (auto; lra). pose proof (exp_neg_01 _ (rate_pos _ Ht)) as He.
  unfold Rmin, Rmax. destruct (Rle_dec prev (equilibrium g em)); nra.
Qed.

Lemma eq_mono g a b : 0 < g_tau1 g -> 0 < g_beta g -> a <= b -> equilibrium g a <= equilibrium g b.
Proof.
  intros Ht Hb H. unfold equilibrium, Rdiv. apply Rmult_le_compat_r; [left; apply Rinv_0_lt_compat; auto|].
  apply Rmult_le_compat_r; lra.
Qed.

Lemma step_mono g a b c d : 0 < g_tau1 g -> 0 < g_beta g -> a <= b -> c <= d -> vec_step g a c <= vec_step g b d.
Proof.
  intros Ht Hb H1 H2. rewrite !vec_R by lra. pose proof (exp_neg_01 _ (rate_pos _ Ht)).
  pose proof (eq_mono g a b Ht Hb H1). nra.
Qed.

Lemma c38_mono g ems : forall ems' c c', 0 < g_tau1 g -> 0 < g_beta g -> c <= c' ->
  Forall2 Rle ems ems' -> Forall2 Rle (vec_years g c ems) (vec_years g c' ems').
Proof.
  induction ems as [|e r IH]; intros ems' c c' Ht Hb Hc HF; inversion HF as [|? e' ? r' He HF']; subst; cbn [vec_years].
  - constructor.
  - constructor; [apply step_mono; auto|]. apply IH; auto. apply step_mono; auto.
Qed.

Lemma c38_nonneg g ems : forall c, 0 < g_tau1 g -> 0 < g_beta g -> 0 <= c -> Forall (fun e => 0 <= e + g_nat g) ems ->
  Forall (fun x => 0 <= x) (vec_years g c ems).
Proof.
  induction ems as [|e r IH]; intros c Ht Hb Hc HF; cbn [vec_years]; constructor; inversion HF; subst.
  - rewrite vec_R by lra. pose proof (exp_neg_01 _ (rate_pos _ Ht)).
    assert (0 <= equilibrium g e).
    { unfold equilibrium, Rdiv. apply Rmult_le_pos; [|left; apply Rinv_0_lt_compat; auto]. apply Rmult_le_pos; lra. }
    nra.
  - apply IH; auto. rewrite vec_R by lra. pose proof (exp_neg_01 _ (rate_pos _ Ht)).
    assert (0 <= equilibrium g e).
    { unfold equilibrium, Rdiv. apply Rmult_le_pos; [|left; apply Rinv_0_lt_compat; auto]. apply Rmult_le_pos; lra. }
    nra.
Qed.

(** All emissions at most [em] and a start at or below its equilibrium: never above it. *)
Lemma c38_ceiling g em ems : forall c, 0 < g_tau1 g -> 0 < g_beta g -> c <= equilibrium g em ->
  Forall (fun e => e <= em) ems -> Forall (fun x => x <= equilibrium g em) (vec_years g c ems).
Proof.
  induction ems as [|e r IH]; intros c Ht Hb Hc HF; cbn [vec_years]; constructor; inversion HF; subst.
  - pose proof (c38_between g e c Ht ltac:(lra)) as [_ U]. pose proof (eq_mono g e em Ht Hb ltac:(lra)).
    unfold Rmax in U. destruct (Rle_dec c (equilibrium g e)); lra.
  - apply IH; auto.
    pose proof (c38_between g e c Ht ltac:(lra)) as [_ U]. pose proof (eq_mono g e em Ht Hb ltac:(lra)).
    unfold Rmax in U. destruct (Rle_dec c (equilibrium g e)); lra.
Qed.

Lemma c38_decay g em n : forall c m, 0 < g_tau1 g -> g_beta g <> 0 -> (n < m)%nat ->
  nth n (vec_years g c (repeat em m)) 0 - equilibrium g em
  = (c - equilibrium g em) * exp (- (INR (S n) / g_tau1 g)).
Proof.
  induction n as [|n IH]; intros c m Ht Hb Hm; (destruct m as [|m]; [lia|]); cbn [repeat vec_years nth].
  - rewrite vec_R by lra. change (INR 1) with 1. ring.
  - rewrite IH by (auto; lia). rewrite vec_R by lra.
    replace (equilibrium g em + (c - equilibrium g em) * exp (- (1 / g_tau1 g)) - equilibrium g em)
      with ((c - equilibrium g em) * exp (- (1 / g_tau1 g))) by ring.
    rewrite Rmult_assoc, <- exp_plus. f_equal. f_equal. rewrite (S_INR (S n)). field. lra.
Qed.

Lemma c38_limit g em c : 0 < g_tau1 g -> g_beta g <> 0 ->
  forall eps, 0 < eps -> exists M, forall n m, (M <= n)%nat -> (n < m)%nat ->
    Rabs (nth n (vec_years g c (repeat em m)) 0 - equilibrium g em) < eps.
Proof.
  intros Ht Hb eps He.
  set (D := Rabs (c - equilibrium g em)).
  (* exp(-x) <= 1/x for x > 0 *)
  destruct (archimed (D * g_tau1 g / eps)) as [HA _].
  exists (Z.to_nat (up (D * g_tau1 g / eps))). intros n m Hn Hm.
  rewrite (c38_decay g em n c m Ht Hb Hm), Rabs_mult. fold D.
  rewrite (Rabs_pos_eq (exp _)) by (left; apply exp_pos).
  assert (HD : 0 <= D) by apply Rabs_pos.
  set (x := INR (S n) / g_tau1 g).
  assert (Hx : 0 < x). { unfold x, Rdiv. apply Rmult_lt_0_compat; [apply lt_0_INR; lia|apply Rinv_0_lt_compat; auto]. }
  assert (Hbig : D / eps < x).
  { unfold x. apply (Rmult_lt_reg_r (g_tau1 g)); auto. unfold Rdiv at 2. rewrite Rmult_assoc, Rinv_l, Rmult_1_r by lra.
    apply Rle_lt_trans with (INR n); [|rewrite S_INR; lra].
    apply Rle_trans with (IZR (up (D * g_tau1 g / eps))).
    - left. replace (D / eps * g_tau1 g) with (D * g_tau1 g / eps) by (field; lra). lra.
    - rewrite INR_IZR_INZ. apply IZR_le. lia. }
  assert (He1 : exp (- x) < / x).
  { rewrite exp_Ropp. apply Rinv_lt_contravar; [apply Rmult_lt_0_compat; auto; apply exp_pos|].
    pose proof (exp_ineq1 x ltac:(lra)). lra. }
  destruct (Req_dec D 0) as [E|E]; [rewrite E, Rmult_0_l; auto|].
  apply Rlt_trans with (D * / x); [apply Rmult_lt_compat_l; lra|].
  apply (Rmult_lt_reg_r x); auto. rewrite Rmult_assoc, Rinv_l, Rmult_1_r by lra.
  apply (Rmult_lt_reg_r (/ eps)); [apply Rinv_0_lt_compat; auto|].
  replace (eps * x * / eps) with x by (field; lra). exact Hbig.
Qed.

(** ** C40 *)
Lemma ml_unknown p emis g q c y :
  ~ In (lifetime_mode p) ["TAR"; "CONSTANT_12"; "WIGLEY"] ->
  methane_lifetime p emis g q c y = Ok (q + 1 / g_tau2 g + 1 / g_tau3 g).
Proof.
  intros H. unfold methane_lifetime.
  destruct (String.eqb_spec (lifetime_mode p) "TAR"); [exfalso; apply H; left; auto|].
  destruct (String.eqb_spec (lifetime_mode p) "CONSTANT_12"); [exfalso; apply H; right; left; auto|].
  destruct (String.eqb_spec (lifetime_mode p) "WIGLEY"); [exfalso; apply H; right; right; left; auto|].
  reflexivity.
Qed.
Lemma ml_const p emis g q c y : lifetime_mode p = "CONSTANT_12" ->
  methane_lifetime p emis g q c y = Ok (1 / 12 + 1 / g_tau2 g + 1 / g_tau3 g).
Proof. intros H. unfold methane_lifetime. rewrite H. reflexivity. Qed.
Lemma ml_wigley p emis g q c y : lifetime_mode p = "WIGLEY" ->
  methane_lifetime p emis g q c y = Ok (q * Rpower (c / 1700) (- (238 / 1000)) + 1 / g_tau2 g + 1 / g_tau3 g).
Proof. intros H. unfold methane_lifetime. rewrite H. reflexivity. Qed.
Lemma ml_tar p emis g q c y nox nox0 co co0 voc voc0 : lifetime_mode p = "TAR" ->
  fr_get emis "NOx" y = Ok nox -> fr_get emis "NOx" 2000 = Ok nox0 ->
  fr_get emis "CO" y = Ok co -> fr_get emis "CO" 2000 = Ok co0 ->
  fr_get emis "NMVOC" y = Ok voc -> fr_get emis "NMVOC" 2000 = Ok voc0 ->
  methane_lifetime p emis g q c y =
  Ok (q * (1 - 32 / 100 * (ln c - ln 1751) + (42 * (nox - nox0) - 105 / 100 * (co - co0) - 315 / 100 * (voc - voc0)) / 10000)
      + 1 / g_tau2 g + 1 / g_tau3 g).
Proof.
  intros H E1 E2 E3 E4 E5 E6. unfold methane_lifetime. rewrite H.
  change (String.eqb "TAR" "TAR") with true. cbv iota.
  rewrite E1. cbn [rbind]. rewrite E2. cbn [rbind]. rewrite E3. cbn [rbind]. rewrite E4. cbn [rbind].
  rewrite E5. cbn [rbind]. rewrite E6. cbn [rbind]. rnum. rdec. apply f_equal.
  apply Rplus_eq_compat_r, Rplus_eq_compat_r. field.
Qed.

Lemma wigley_decreasing k c c' : 0 < k -> 0 < c -> c < c' ->
  k * Rpower (c' / 1700) (- (238 / 1000)) < k * Rpower (c / 1700) (- (238 / 1000)).
Proof.
  intros Hk Hc H. apply Rmult_lt_compat_l; auto. unfold Rpower. apply exp_increasing.
  assert (ln (c / 1700) < ln (c' / 1700)) by (apply ln_increasing; lra). lra.
Qed.
Lemma wigley_ref : Rpower (1700 / 1700) (- (238 / 1000)) = 1.
Proof. replace (1700 / 1700) with 1 by lra. unfold Rpower. rewrite ln_1, Rmult_0_r. apply exp_0. Qed.

(** Above this concentration the TAR loss rate is not positive. *)
Lemma tar_eventually q e k c : 0 < q ->
  1751 * exp ((1 + e + k / q) / (32 / 100)) <= c -> q * (1 - 32 / 100 * (ln c - ln 1751) + e) + k <= 0.
Proof.
  intros Hq Hc. set (u := (1 + e + k / q) / (32 / 100)) in *.
  assert (Hpos : 0 < 1751 * exp u) by (pose proof (exp_pos u); lra).
  assert (L : ln 1751 + u <= ln c).
  { rewrite <- (ln_exp u) at 1. rewrite <- ln_mult by (try lra; apply exp_pos).
    destruct Hc as [Hc|Hc]; [left; apply ln_increasing; auto|right; f_equal; auto]. }
  assert (E : q * (1 + e) + k = q * (32 / 100 * u)) by (unfold u; field; lra).
  nra.
Qed.

(** A negative loss rate makes the concentration grow without any emission. *)
Lemma negative_rate_grows beta q c : q < 0 -> 0 < c -> c < scalar_step beta q 0 c.
Proof.
  intros Hq Hc. unfold scalar_step; rnum.
  assert (1 < exp (- q)). { replace 1 with (exp 0) by apply exp_0. apply exp_increasing. lra. }
  unfold Rdiv. rewrite Rmult_0_l, Rmult_0_l. nra.
Qed.

Lemma tar_bad p emis g y nox nox0 co co0 voc voc0 : lifetime_mode p = "TAR" -> 0 < g_tau1 g ->
  fr_get emis "NOx" y = Ok nox -> fr_get emis "NOx" 2000 = Ok nox0 ->
  fr_get emis "CO" y = Ok co -> fr_get emis "CO" 2000 = Ok co0 ->
  fr_get emis "NMVOC" y = Ok voc -> fr_get emis "NMVOC" 2000 = Ok voc0 ->
  exists top, forall c, top < c -> exists rate, methane_lifetime p emis g (1 / g_tau1 g) c y = Ok rate /\ rate < 0 /\
    forall beta, 0 < c -> c < scalar_step beta rate 0 c.
Proof.
  intros HM HT E1 E2 E3 E4 E5 E6.
  set (e := (42 * (nox - nox0) - 105 / 100 * (co - co0) - 315 / 100 * (voc - voc0)) / 10000).
  set (k := 1 / g_tau2 g + 1 / g_tau3 g). set (q := 1 / g_tau1 g).
  assert (Hq : 0 < q) by (unfold q; apply Rdiv_lt_0_compat; lra).
  exists (1751 * exp ((1 + e + (k + 1) / q) / (32 / 100))). intros x Hx.
  pose proof (tar_eventually q e (k + 1) x Hq (Rlt_le _ _ Hx)) as HB.
  eexists. split; [eapply ml_tar; eauto|]. fold e q.
  assert (HN : q * (1 - 32 / 100 * (ln x - ln 1751) + e) + 1 / g_tau2 g + 1 / g_tau3 g < 0) by (unfold k in HB; lra).
  split; [exact HN|]. intros beta H0. apply negative_rate_grows; auto.
Qed.
