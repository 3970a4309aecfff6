(** * P_Box: the box carbon cycle (C92) *)
From Coq Require Import Reals Lra Lia List ZArith.
From Verif Require Import Num M_Carbon M_CarbonBox Spec_UDM Spec_Carbon Spec_Box P_Carbon2 P_CarbonMisc.
Import ListNotations.
Open Scope R_scope.

Lemma box_step p s em t : let s' := fst (box_year p s em t) in
  atm s' = atm s + (em - ocean_rate p t * (atm s - 278) + b_soil_rate p * soil s - production p (atm s) t) / pgc /\
  veg s' = veg s + (production p (atm s) t - b_veg_frac p * veg s) /\
  soil s' = soil s + (b_veg_frac p * veg s - b_soil_rate p * soil s) /\
  omix s' = omix s + (ocean_rate p t * (atm s - 278) - b_exchange p * omix s + b_exchange p * odeep s) /\
  odeep s' = odeep s + (b_exchange p * omix s - b_exchange p * odeep s) /\ snd (box_year p s em t) = atm s'.
Proof.
  cbv zeta. unfold box_year. cbv zeta. cbn [fst snd atm veg soil omix odeep].
  assert (P : calculate_npp p s t = production p (atm s) t).
  { unfold calculate_npp, production. rnum. unfold Rmax. destruct (Rlt_dec _ _), (Rle_dec _ _); try reflexivity; lra. }
  rewrite P, pgc_eq. unfold calculate_ocean_uptake, ocean_rate. rnum.
  split; [field; unfold pgc; lra|]. split; [ring|]. split; [ring|]. split; [ring|]. split; [ring|reflexivity].
Qed.
Lemma pgc_pos : 0 < pgc. Proof. unfold pgc. lra. Qed.
Lemma production_nonneg p a t : 0 <= production p a t. Proof. apply Rmax_l. Qed.
Lemma ln_diff a b : 0 < a -> a <= b -> ln b - ln a <= (b - a) / a.
Proof.
  intros P L. replace (ln b - ln a) with (ln (b / a)).
  2:{ unfold Rdiv. rewrite ln_mult, ln_Rinv; [lra|lra|lra|apply Rinv_0_lt_compat; lra]. }
  assert (Q : 0 < b / a) by (apply Rdiv_lt_0_compat; lra). replace ((b - a) / a) with (b / a - 1) by (field; lra).
  assert (E := exp_ineq1_le (ln (b / a))). rewrite exp_ln in E by exact Q. lra.
Qed.
Lemma production_step p a b t : 0 <= b_beta_f p -> 0 < a -> a <= b ->
  production p a t <= production p b t /\ production p b t - production p a t <= b_beta_f p / a * (b - a).
Proof.
  intros B P L. assert (D := ln_diff a b P L). unfold production.
  assert (E : ln (b / 278) - ln (a / 278) = ln b - ln a).
  { unfold Rdiv. rewrite !ln_mult by lra. lra. }
  assert (M : ln a <= ln b) by (destruct (Rle_lt_or_eq_dec _ _ L) as [L'|L']; [left; apply ln_increasing; assumption|rewrite L'; lra]).
  assert (K : b_beta_f p * (ln (b / 278) - ln (a / 278)) <= b_beta_f p / a * (b - a)).
  { rewrite E. apply Rle_trans with (b_beta_f p * ((b - a) / a)); [apply Rmult_le_compat_l; assumption|right; field; lra]. }
  assert (K0 : 0 <= b_beta_f p * (ln (b / 278) - ln (a / 278))) by (rewrite E; apply Rmult_le_pos; lra).
  unfold Rmax. destruct (Rle_dec _ _), (Rle_dec _ _); split; lra.
Qed.

Lemma box_step_le p s s' em em' t a : shares p -> tame p a t -> 0 < a -> a <= atm s -> box_le s s' -> em <= em' ->
  box_le (fst (box_year p s em t)) (fst (box_year p s' em' t)).
Proof.
  intros [B [F0 F1] [S0 S1] [E0 E1]] [K0 K1] P L [H1 H2 H3 H4 H5] M.
  destruct (box_step p s em t) as (A1 & A2 & A3 & A4 & A5 & _). destruct (box_step p s' em' t) as (C1 & C2 & C3 & C4 & C5 & _).
  assert (P' : 0 < atm s) by lra. destruct (production_step p (atm s) (atm s') t B P' H1) as [Q1 Q2].
  assert (BA : b_beta_f p / atm s <= b_beta_f p / a).
  { unfold Rdiv. apply Rmult_le_compat_l; [exact B|]. apply Rinv_le_contravar; assumption. }
  assert (PG := pgc_pos).
  constructor.
  - rewrite A1, C1. set (d := atm s' - atm s). assert (D : 0 <= d) by (unfold d; lra).
    assert (X : ocean_rate p t * d + (production p (atm s') t - production p (atm s) t) <= pgc * d).
    { apply Rle_trans with (ocean_rate p t * d + b_beta_f p / a * d); [|rewrite <- Rmult_plus_distr_r; apply Rmult_le_compat_r; assumption].
      apply Rplus_le_compat_l. apply Rle_trans with (b_beta_f p / atm s * d); [exact Q2|apply Rmult_le_compat_r; assumption]. }
    assert (Y : b_soil_rate p * soil s <= b_soil_rate p * soil s') by (apply Rmult_le_compat_l; assumption).
    apply Rmult_le_reg_l with pgc; [exact PG|]. unfold Rdiv. rewrite !Rmult_plus_distr_l.
    replace (pgc * ((em - ocean_rate p t * (atm s - 278) + b_soil_rate p * soil s - production p (atm s) t) * / pgc))
      with (em - ocean_rate p t * (atm s - 278) + b_soil_rate p * soil s - production p (atm s) t) by (field; lra).
    replace (pgc * ((em' - ocean_rate p t * (atm s' - 278) + b_soil_rate p * soil s' - production p (atm s') t) * / pgc))
      with (em' - ocean_rate p t * (atm s' - 278) + b_soil_rate p * soil s' - production p (atm s') t) by (field; lra).
    unfold d in X. lra.
  - rewrite A2, C2. assert (Y : 0 <= (1 - b_veg_frac p) * (veg s' - veg s)) by (apply Rmult_le_pos; lra). lra.
  - rewrite A3, C3. assert (Y : 0 <= (1 - b_soil_rate p) * (soil s' - soil s)) by (apply Rmult_le_pos; lra).
    assert (Z : 0 <= b_veg_frac p * (veg s' - veg s)) by (apply Rmult_le_pos; lra). lra.
  - rewrite A4, C4. assert (Y : 0 <= (1 - b_exchange p) * (omix s' - omix s)) by (apply Rmult_le_pos; lra).
    assert (Z : 0 <= b_exchange p * (odeep s' - odeep s)) by (apply Rmult_le_pos; lra).
    assert (W : 0 <= ocean_rate p t * (atm s' - atm s)) by (apply Rmult_le_pos; lra). lra.
  - rewrite A5, C5. assert (Y : 0 <= (1 - b_exchange p) * (odeep s' - odeep s)) by (apply Rmult_le_pos; lra).
    assert (Z : 0 <= b_exchange p * (omix s' - omix s)) by (apply Rmult_le_pos; lra). lra.
Qed.
Lemma c92_order p a ins ins' : shares p -> 0 < a -> Forall (fun i => tame p a (snd i)) ins -> Forall2 emits_less ins ins' ->
  forall s s', a <= atm s -> Forall (Rle a) (snd (box_run p s ins)) -> box_le s s' ->
  box_le (fst (box_run p s ins)) (fst (box_run p s' ins')) /\ Forall2 Rle (snd (box_run p s ins)) (snd (box_run p s' ins')).
Proof.
  intros SH P TM F. induction F as [|[em t] [em' t'] ins ins' [I1 I2] F IH]; intros s s' L FA LE; cbn [fst snd] in *.
  - cbn [box_run fst snd]. split; [exact LE|constructor].
  - subst t'. inversion TM as [|? ? T1 T2]; subst. cbn [snd] in T1. cbn [box_run] in *.
    assert (LE1 := box_step_le p s s' em em' t a SH T1 P L LE I1).
    destruct (box_step p s em t) as (_ & _ & _ & _ & _ & C1). destruct (box_step p s' em' t) as (_ & _ & _ & _ & _ & C2).
    destruct (box_year p s em t) as [s1 c1], (box_year p s' em' t) as [s1' c1']. cbn [fst snd] in *.
    specialize (IH T2 s1 s1'). destruct (box_run p s1 ins) as [s2 cs], (box_run p s1' ins') as [s2' cs']. cbn [fst snd] in *.
    inversion FA as [|? ? X1 X2]; subst. destruct (IH X1 X2 LE1) as [Y1 Y2]. split; [exact Y1|]. constructor; [apply LE1|exact Y2].
Qed.
Lemma c92_nonneg p ins : 0 <= b_veg_frac p <= 1 -> 0 <= b_soil_rate p <= 1 -> forall s, 0 <= veg s -> 0 <= soil s ->
  0 <= veg (fst (box_run p s ins)) /\ 0 <= soil (fst (box_run p s ins)).
Proof.
  intros F S. induction ins as [|[em t] ins IH]; intros s V W; [split; assumption|]. cbn [box_run].
  destruct (box_step p s em t) as (_ & A2 & A3 & _). destruct (box_year p s em t) as [s1 c1]. cbn [fst] in *.
  specialize (IH s1). destruct (box_run p s1 ins) as [s2 cs]. cbn [fst] in *. apply IH.
  - rewrite A2. assert (Q := production_nonneg p (atm s) t). assert (X : 0 <= (1 - b_veg_frac p) * veg s) by (apply Rmult_le_pos; lra). lra.
  - rewrite A3. assert (X : 0 <= (1 - b_soil_rate p) * soil s) by (apply Rmult_le_pos; lra). assert (Y : 0 <= b_veg_frac p * veg s) by (apply Rmult_le_pos; lra). lra.
Qed.

(** ** Constant warming *)
Lemma box_run_app p l : forall s l', box_run p s (l ++ l') =
  let '(s1, c1) := box_run p s l in let '(s2, c2) := box_run p s1 l' in (s2, c1 ++ c2).
Proof.
  induction l as [|[em t] l IH]; intros s l'; cbn [app box_run]; [destruct (box_run p s l'); reflexivity|].
  destruct (box_year p s em t) as [s1 c]. rewrite IH. destruct (box_run p s1 l) as [s2 c2]. destruct (box_run p s2 l') as [s3 c3]. reflexivity.
Qed.
Lemma box_at_S p s t em n : box_at p s t em (S n) = fst (box_year p (box_at p s t em n) (em n) t).
Proof.
  unfold box_at. rewrite seq_S, map_app. cbn [map plus]. rewrite box_run_app. destruct (box_run p s _) as [s1 c1]. cbn [fst box_run].
  destruct (box_year p s1 (em n) t) as [s2 c2]. reflexivity.
Qed.

Section Const.
Variables (p : box_pam R) (t : R) (em : nat -> R) (s : box_state R).
Hypotheses (SH : shares p) (F0 : 0 < b_veg_frac p) (S0 : 0 < b_soil_rate p) (TM : tame p 278 t) (EM : forall n, 0 <= em n).
Hypothesis (AB : above_rest p t s).
Notation st n := (box_at p s t em n).

Lemma production_mono a : 278 <= a -> production p 278 t <= production p a t.
Proof. intros L. apply production_step; [apply SH|lra|exact L]. Qed.
Lemma rest_kept n : above_rest p t (st n).
Proof.
  induction n as [|n IH]; [exact AB|]. rewrite box_at_S. destruct IH as [H1 [H2 H3]].
  destruct (box_step p (st n) (em n) t) as (A1 & A2 & A3 & _). cbv zeta in *. destruct SH as [B [_ F1] [_ S1] _]. destruct TM as [T0 T1].
  destruct (production_step p 278 (atm (st n)) t B ltac:(lra) H1) as [Q1 Q2]. assert (PG := pgc_pos). assert (E := EM n).
  assert (V : b_veg_frac p * veg_rest p t = production p 278 t) by (unfold veg_rest; field; lra).
  assert (W : b_soil_rate p * soil_rest p t = production p 278 t) by (unfold soil_rest; field; lra).
  unfold above_rest. rewrite A1, A2, A3. split; [|split].
  - apply Rmult_le_reg_l with pgc; [exact PG|]. rewrite Rmult_plus_distr_l.
    match goal with |- _ <= _ + pgc * (?x / pgc) => replace (pgc * (x / pgc)) with x by (field; lra) end.
    assert (X : ocean_rate p t * (atm (st n) - 278) + b_beta_f p / 278 * (atm (st n) - 278) <= pgc * (atm (st n) - 278)) by (rewrite <- Rmult_plus_distr_r; apply Rmult_le_compat_r; lra).
    assert (Y : b_soil_rate p * soil_rest p t <= b_soil_rate p * soil (st n)) by (apply Rmult_le_compat_l; lra). lra.
  - assert (X : (1 - b_veg_frac p) * veg_rest p t <= (1 - b_veg_frac p) * veg (st n)) by (apply Rmult_le_compat_l; lra). lra.
  - assert (X : (1 - b_soil_rate p) * soil_rest p t <= (1 - b_soil_rate p) * soil (st n)) by (apply Rmult_le_compat_l; lra).
    assert (Y : b_veg_frac p * veg_rest p t <= b_veg_frac p * veg (st n)) by (apply Rmult_le_compat_l; lra). lra.
Qed.
Notation emitted := (sumn em).
Notation over := (sumn (fun k => atm (st k) - 278)).
Lemma ocean_gain n : ocean (st n) = ocean s + ocean_rate p t * over n.
Proof.
  induction n as [|n IH]; [cbn [sumn]; change (st 0) with s; ring|]. cbn [sumn]. rewrite box_at_S. destruct (box_step p (st n) (em n) t) as (_ & _ & _ & A4 & A5 & _). cbv zeta in *.
  unfold ocean in *. rewrite A4, A5. lra.
Qed.
Lemma excess_balance n : excess p t (st n) + ocean_rate p t * over n = excess p t s + emitted n.
Proof.
  assert (E : box_total (st n) = box_total s + emitted n).
  { induction n as [|n IH]; [cbn [sumn]; change (st 0) with s; lra|]. cbn [sumn]. rewrite box_at_S, box_year_total, IH. ring. }
  assert (G := ocean_gain n). unfold box_total, excess, ocean in *. lra.
Qed.
Lemma excess_nonneg n : 0 <= excess p t (st n).
Proof.
  destruct (rest_kept n) as [H1 [H2 H3]]. unfold excess. assert (PG := pgc_pos). assert (X : 0 <= pgc * (atm (st n) - 278)) by (apply Rmult_le_pos; lra). lra.
Qed.
Lemma over_bound n : ocean_rate p t * over n <= excess p t s + emitted n.
Proof. assert (B := excess_balance n). assert (E := excess_nonneg n). lra. Qed.

Variable C : R.
Hypothesis K0 : 0 < ocean_rate p t.
Hypothesis EC : forall n, emitted n <= C.
Lemma over_grow n : over n <= over (S n). Proof. cbn [sumn]. destruct (rest_kept n). lra. Qed.
Lemma atm_limit : Un_cv (fun n => atm (st n)) 278.
Proof.
  assert (B : has_ub over).
  { exists ((excess p t s + C) / ocean_rate p t). intros x [n ->]. apply Rmult_le_reg_l with (ocean_rate p t); [exact K0|].
    replace (ocean_rate p t * ((excess p t s + C) / ocean_rate p t)) with (excess p t s + C) by (field; lra).
    assert (O := over_bound n). assert (E := EC n). lra. }
  destruct (growing_cv over over_grow B) as [l L].
  intros eps HE. destruct (L (eps / 2) ltac:(lra)) as [n0 Hn]. exists n0. intros n Ln.
  assert (X := Hn n Ln). assert (Y := Hn (S n) ltac:(lia)). unfold R_dist in *. cbn [sumn] in Y.
  destruct (rest_kept n) as [H1 _]. apply Rabs_def2 in X, Y. apply Rabs_def1; lra.
Qed.
(** a damped sequence with a vanishing input vanishes *)
Lemma damped q x e : 0 <= q < 1 -> (forall n, 0 <= x n) -> (forall n, x (S n) <= q * x n + e n) -> Un_cv e 0 -> Un_cv x 0.
Proof.
  intros [Q0 Q1] X0 XS EE eps HE. set (d := eps * (1 - q) / 2). assert (D : 0 < d) by (unfold d; apply Rdiv_lt_0_compat; [apply Rmult_lt_0_compat; lra|lra]).
  destruct (EE d D) as [n0 Hn].
  assert (K : forall k, x (n0 + k)%nat <= q ^ k * x n0 + eps / 2).
  { induction k as [|k IH]; [rewrite Nat.add_0_r; cbn [pow]; lra|]. rewrite <- plus_n_Sm. eapply Rle_trans; [apply XS|].
    assert (Y := Hn (n0 + k)%nat ltac:(lia)). unfold R_dist in Y. apply Rabs_def2 in Y. cbn [pow].
    assert (Z : q * x (n0 + k)%nat <= q * (q ^ k * x n0 + eps / 2)) by (apply Rmult_le_compat_l; assumption).
    assert (W : q * (eps / 2) + d = eps / 2) by (unfold d; field). lra. }
  destruct (pow_lt_1_zero q ltac:(rewrite Rabs_right; lra) (eps / (2 * (x n0 + 1)))) as [k0 Hk].
  { apply Rdiv_lt_0_compat; [exact HE|]. assert (Y := X0 n0). lra. }
  exists (n0 + k0)%nat. intros n Ln. assert (Y := X0 n). unfold R_dist. rewrite Rminus_0_r, Rabs_right by lra.
  replace n with (n0 + (n - n0))%nat by lia. assert (Z := K (n - n0)%nat). assert (W := Hk (n - n0)%nat ltac:(lia)).
  assert (P : 0 <= q ^ (n - n0)) by (apply pow_le; lra). rewrite Rabs_right in W by lra.
  assert (X1 := X0 n0).
  assert (V : q ^ (n - n0) * x n0 < eps / 2).
  { apply Rle_lt_trans with (q ^ (n - n0) * (x n0 + 1)); [apply Rmult_le_compat_l; lra|].
    apply Rlt_le_trans with (eps / (2 * (x n0 + 1)) * (x n0 + 1)); [apply Rmult_lt_compat_r; lra|right; field; lra]. }
  lra.
Qed.
Lemma cv_scale (x : nat -> R) k : Un_cv x 0 -> Un_cv (fun n => k * x n) 0.
Proof.
  intros X. assert (Y := CV_mult (fun _ => k) x k 0 ltac:(intros eps HE; exists 0%nat; intros; unfold R_dist; rewrite Rminus_diag_eq, Rabs_R0; auto) X).
  rewrite Rmult_0_r in Y. exact Y.
Qed.
Lemma cv_shift (x : nat -> R) l : Un_cv (fun n => x n - l) 0 <-> Un_cv x l.
Proof.
  split; intros X eps HE; destruct (X eps HE) as [n0 H]; exists n0; intros n Ln; specialize (H n Ln); unfold R_dist in *; [rewrite Rminus_0_r in H|rewrite Rminus_0_r]; exact H.
Qed.
Lemma veg_limit : Un_cv (fun n => veg (st n)) (veg_rest p t).
Proof.
  apply cv_shift. apply (damped (1 - b_veg_frac p) _ (fun n => b_beta_f p / 278 * (atm (st n) - 278))).
  - destruct SH as [_ [_ F1] _ _]. lra.
  - intros n. destruct (rest_kept n) as [_ [H _]]. lra.
  - intros n. rewrite box_at_S. destruct (box_step p (st n) (em n) t) as (_ & A2 & _). cbv zeta in A2. rewrite A2. destruct (rest_kept n) as [H1 _].
    destruct (production_step p 278 (atm (st n)) t (sh_beta p SH) ltac:(lra) H1) as [_ Q].
    assert (V : b_veg_frac p * veg_rest p t = production p 278 t) by (unfold veg_rest; field; lra). lra.
  - apply (cv_scale (fun n => atm (st n) - 278)). apply (proj2 (cv_shift (fun n => atm (st n)) 278)). exact atm_limit.
Qed.
Lemma soil_limit : Un_cv (fun n => soil (st n)) (soil_rest p t).
Proof.
  apply cv_shift. apply (damped (1 - b_soil_rate p) _ (fun n => b_veg_frac p * (veg (st n) - veg_rest p t))).
  - destruct SH as [_ _ [_ S1] _]. lra.
  - intros n. destruct (rest_kept n) as [_ [_ H]]. lra.
  - intros n. rewrite box_at_S. destruct (box_step p (st n) (em n) t) as (_ & _ & A3 & _). cbv zeta in A3. rewrite A3.
    assert (V : b_veg_frac p * veg_rest p t = production p 278 t) by (unfold veg_rest; field; lra).
    assert (W : b_soil_rate p * soil_rest p t = production p 278 t) by (unfold soil_rest; field; lra). lra.
  - apply (cv_scale (fun n => veg (st n) - veg_rest p t)). apply (proj2 (cv_shift (fun n => veg (st n)) (veg_rest p t))). exact veg_limit.
Qed.
Lemma excess_limit : Un_cv (fun n => excess p t (st n)) 0.
Proof.
  replace 0 with (pgc * 0 + 0 + 0) by ring. unfold excess. apply CV_plus; [apply CV_plus|].
  - rewrite Rmult_0_r. apply (cv_scale (fun n => atm (st n) - 278)). apply (proj2 (cv_shift (fun n => atm (st n)) 278)). exact atm_limit.
  - apply (proj2 (cv_shift (fun n => veg (st n)) (veg_rest p t))). exact veg_limit.
  - apply (proj2 (cv_shift (fun n => soil (st n)) (soil_rest p t))). exact soil_limit.
Qed.
Lemma ocean_limit : Un_cv emitted C -> Un_cv (fun n => ocean (st n)) (ocean s + excess p t s + C).
Proof.
  intros E.
  assert (X : forall n, ocean (st n) = (ocean s + excess p t s + emitted n) - excess p t (st n)).
  { intros n. assert (B := excess_balance n). assert (G := ocean_gain n). lra. }
  assert (L : Un_cv (fun n => (ocean s + excess p t s + emitted n) - excess p t (st n)) (ocean s + excess p t s + C - 0)).
  { apply CV_minus; [|exact excess_limit]. apply CV_plus; [|exact E]. intros eps HE. exists 0%nat. intros. unfold R_dist. rewrite Rminus_diag_eq, Rabs_R0; auto. }
  rewrite Rminus_0_r in L. intros eps HE. destruct (L eps HE) as [n0 H]. exists n0. intros n Ln. rewrite X. apply H. exact Ln.
Qed.
End Const.

Lemma sumn_stops em K : (forall n, 0 <= em n) -> (forall n, (K <= n)%nat -> em n = 0) -> (forall n, sumn em n <= sumn em K) /\ Un_cv (sumn em) (sumn em K).
Proof.
  intros E Z. assert (A : forall k, sumn em (K + k) = sumn em K).
  { induction k as [|k IH]; [rewrite Nat.add_0_r; reflexivity|]. rewrite <- plus_n_Sm. cbn [sumn]. rewrite IH, Z by lia. ring. }
  assert (B : forall k n, sumn em n <= sumn em (n + k)).
  { induction k as [|k IH]; intros n; [rewrite Nat.add_0_r; lra|]. rewrite <- plus_n_Sm. cbn [sumn]. specialize (IH n). specialize (E (n + k)%nat). lra. }
  split.
  - intros n. destruct (Nat.le_ge_cases n K) as [L|L].
    + replace K with (n + (K - n))%nat by lia. apply B.
    + replace n with (K + (n - K))%nat by lia. rewrite A. lra.
  - intros eps HE. exists K. intros n Ln. replace n with (K + (n - K))%nat by lia. rewrite A. unfold R_dist. rewrite Rminus_diag_eq, Rabs_R0; auto.
Qed.
Lemma c92_forgets p t em s K : shares p -> 0 < b_veg_frac p -> 0 < b_soil_rate p -> tame p 278 t -> 0 < ocean_rate p t -> above_rest p t s ->
  (forall n, 0 <= em n) -> (forall n, (K <= n)%nat -> em n = 0) ->
  Un_cv (fun n => atm (box_at p s t em n)) 278 /\ Un_cv (fun n => veg (box_at p s t em n)) (veg_rest p t) /\
  Un_cv (fun n => soil (box_at p s t em n)) (soil_rest p t) /\ Un_cv (fun n => ocean (box_at p s t em n)) (ocean s + excess p t s + sumn em K).
Proof.
  intros SH F0 S0 TM K0 AB E Z. destruct (sumn_stops em K E Z) as [B L].
  split; [exact (atm_limit p t em s SH F0 S0 TM E AB _ K0 B)|]. split; [exact (veg_limit p t em s SH F0 S0 TM E AB _ K0 B)|].
  split; [exact (soil_limit p t em s SH F0 S0 TM E AB _ K0 B)|exact (ocean_limit p t em s SH F0 S0 TM E AB _ K0 B L)].
Qed.
Lemma c92_floor p t em s n : shares p -> 0 < b_veg_frac p -> 0 < b_soil_rate p -> tame p 278 t -> above_rest p t s -> (forall n, 0 <= em n) ->
  above_rest p t (box_at p s t em n) /\ ocean_rate p t * sumn (fun k => atm (box_at p s t em k) - 278) n <= excess p t s + sumn em n.
Proof.
  intros SH F0 S0 TM AB E. split; [exact (rest_kept p t em s SH F0 S0 TM E AB n)|exact (over_bound p t em s SH F0 S0 TM E AB n)].
Qed.
Lemma c92_start p t : b_veg_frac p = 1 / 10 -> b_soil_rate p = 1 / 50 -> 0 <= b_land_sens p * t -> above_rest p t box_init.
Proof.
  intros F S L. unfold above_rest, veg_rest, soil_rest, production, box_init. cbn [atm veg soil]. rnum. rewrite F, S.
  replace (278 / 278) with 1 by field. rewrite ln_1. unfold Rmax. destruct (Rle_dec _ _); lra.
Qed.
