(** * P_Carbon6: shape of the production curve (C30) *)
From Coq Require Import Reals Lra Psatz.
From Verif Require Import Num M_Carbon Spec_UDM Spec_Carbon P_Carbon5.
Open Scope R_scope.

Section Curve.
Variable p : cc_pam R.
Hypothesis AD : cc_admissible p.
Notation w := (w_sigmoid p).
Notation v := (w_threshold p).
Let a x := exp (- ((x - t_half p) / w)).
Let b x := exp ((x - t_threshold p) / v).
Let h x := (1 + a x) * (1 + b x).

Lemma sig_a x : sigmoid_gen x (t_half p) w = / (1 + a x).
Proof. unfold sigmoid_gen, a. rnum. unfold Rdiv at 1. rewrite Rmult_1_l. reflexivity. Qed.
Lemma thr_b x : threshold_gen x (t_threshold p) v = / (1 + b x).
Proof.
  unfold threshold_gen, b. rnum. rewrite exp_Ropp. pose proof (exp_pos ((x - t_threshold p) / v)). field. lra.
Qed.
Lemma npp_h t : fnpp_from_temp p t = 60 * h 0 / h t.
Proof.
  unfold fnpp_from_temp. cbv zeta. change (@nofZ R RNum 0) with 0. rewrite !sig_a, !thr_b. unfold h.
  assert (0 < a 0 /\ 0 < b 0 /\ 0 < a t /\ 0 < b t) as (H1 & H2 & H3 & H4) by (repeat split; apply exp_pos).
  set (a0 := a 0) in *. set (b0 := b 0) in *. set (a1 := a t) in *. set (b1 := b t) in *. clearbody a0 b0 a1 b1. rnum. field. repeat split; lra.
Qed.
Lemma h_pos x : 1 < h x.
Proof. unfold h. pose proof (exp_pos (- ((x - t_half p) / w))). pose proof (exp_pos ((x - t_threshold p) / v)). fold (a x) in H. fold (b x) in H0. nra. Qed.

Lemma tangent x y : exp x * (1 + (y - x)) <= exp y.
Proof.
  replace y with (x + (y - x)) at 2 by ring. rewrite exp_plus. apply Rmult_le_compat_l; [apply Rlt_le, exp_pos|]. apply exp_ineq1_le.
Qed.
Lemma h_convex z : exists d, forall x, h z + d * (x - z) <= h x.
Proof.
  exists (a z * (- / w) + b z * (/ v) + a z * b z * (/ v - / w)). intros x. unfold h.
  pose proof (tangent (- ((z - t_half p) / w)) (- ((x - t_half p) / w))) as T1. pose proof (tangent ((z - t_threshold p) / v) ((x - t_threshold p) / v)) as T2.
  pose proof (tangent (- ((z - t_half p) / w) + (z - t_threshold p) / v) (- ((x - t_half p) / w) + (x - t_threshold p) / v)) as T3.
  rewrite !exp_plus in T3. fold (a z) (a x) in T1, T3. fold (b z) (b x) in T2, T3.
  replace (- ((x - t_half p) / w) - - ((z - t_half p) / w)) with (- / w * (x - z)) in T1 by (unfold Rdiv; ring).
  replace ((x - t_threshold p) / v - (z - t_threshold p) / v) with (/ v * (x - z)) in T2 by (unfold Rdiv; ring).
  replace (- ((x - t_half p) / w) + (x - t_threshold p) / v - (- ((z - t_half p) / w) + (z - t_threshold p) / v)) with ((/ v - / w) * (x - z)) in T3 by (unfold Rdiv; ring).
  lra.
Qed.
Lemma npp_one_peak x y z : x <= y <= z -> Rmin (fnpp_from_temp p x) (fnpp_from_temp p z) <= fnpp_from_temp p y.
Proof.
  intros [L1 L2]. rewrite !npp_h. pose proof (h_pos x). pose proof (h_pos y). pose proof (h_pos z). pose proof (h_pos 0).
  assert (Q : forall s t, h t <= h s -> 60 * h 0 / h s <= 60 * h 0 / h t).
  { intros s t L. pose proof (h_pos s). pose proof (h_pos t). unfold Rdiv. apply Rmult_le_compat_l; [lra|]. apply Rinv_le_contravar; lra. }
  destruct (h_convex y) as [d D]. destruct (Rle_lt_dec d 0) as [S|S].
  - eapply Rle_trans; [apply Rmin_l|]. apply Q. specialize (D x). nra.
  - eapply Rle_trans; [apply Rmin_r|]. apply Q. specialize (D z). nra.
Qed.
Lemma npp_small t e : 0 < e -> 60 * h 0 / e < h t -> fnpp_from_temp p t < e.
Proof.
  intros He L. rewrite npp_h. pose proof (h_pos t). apply (Rmult_lt_reg_r (h t)); [lra|]. unfold Rdiv at 1. rewrite Rmult_assoc, Rinv_l, Rmult_1_r by lra.
  apply (Rmult_lt_compat_l e) in L; [|exact He]. replace (e * (60 * h 0 / e)) with (60 * h 0) in L by (field; lra). lra.
Qed.
Lemma npp_hot e : 0 < e -> exists t0, forall t, t0 <= t -> fnpp_from_temp p t < e.
Proof.
  intros He. set (K := 60 * h 0 / e). assert (0 < K) by (unfold K; pose proof (h_pos 0); apply Rdiv_lt_0_compat; lra).
  exists (t_threshold p + v * ln K). intros t L. apply npp_small; [exact He|]. fold K. pose proof (ca_wt _ AD).
  assert (K <= b t). { unfold b. rewrite <- (exp_ln K) at 1 by assumption. assert (ln K <= (t - t_threshold p) / v). { apply (Rmult_le_reg_l v); [assumption|]. replace (v * ((t - t_threshold p) / v)) with (t - t_threshold p) by (field; lra). lra. }
    destruct (Rle_lt_or_eq_dec _ _ H1) as [X|X]; [apply Rlt_le, exp_increasing, X|rewrite X; lra]. }
  unfold h. pose proof (exp_pos (- ((t - t_half p) / w))). fold (a t) in H2. nra.
Qed.
Lemma npp_cold e : 0 < e -> exists t0, forall t, t <= t0 -> fnpp_from_temp p t < e.
Proof.
  intros He. set (K := 60 * h 0 / e). assert (0 < K) by (unfold K; pose proof (h_pos 0); apply Rdiv_lt_0_compat; lra).
  exists (t_half p - w * ln K). intros t L. apply npp_small; [exact He|]. fold K. pose proof (ca_w _ AD).
  assert (K <= a t). { unfold a. rewrite <- (exp_ln K) at 1 by assumption. assert (ln K <= - ((t - t_half p) / w)). { apply (Rmult_le_reg_l w); [assumption|]. replace (w * - ((t - t_half p) / w)) with (t_half p - t) by (field; lra). lra. }
    destruct (Rle_lt_or_eq_dec _ _ H1) as [X|X]; [apply Rlt_le, exp_increasing, X|rewrite X; lra]. }
  unfold h. pose proof (exp_pos ((t - t_threshold p) / v)). fold (b t) in H2. nra.
Qed.
End Curve.
