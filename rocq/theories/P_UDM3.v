(** * P_UDM3: one sub-step and one year *)
From Coq Require Import Reals ZArith List Lra Lia Bool.
From Verif Require Import Num M_TwoLayer M_UDM Spec_UDM Spec_UDMRuns P_UDM P_UDM2.
Import ListNotations.
Open Scope R_scope.

Lemma IZR_nat n : IZR (Z.of_nat n) = INR n.
Proof. symmetry. apply INR_IZR_INZ. Qed.
Lemma c1_pos : 0 < c1 (A:=R).
Proof. unfold c1, SEC_DAY. rnum. lra. Qed.
Lemma dt_eq (p : ud_pam R) : dt p = year_s / INR (ldtime p).
Proof. unfold dt, SEC_DAY, DAY_YEAR, year_s. rnum. rewrite IZR_nat. unfold Rdiv. ring. Qed.
Lemma ld_pos (p : ud_pam R) : (1 <= ldtime p)%nat -> 0 < INR (ldtime p).
Proof. intro H. apply lt_0_INR. lia. Qed.
Lemma dt_pos (p : ud_pam R) : (1 <= ldtime p)%nat -> 0 < dt p.
Proof. intro H. rewrite dt_eq. apply Rdiv_lt_0_compat; [unfold year_s; lra|apply ld_pos; exact H]. Qed.
Lemma rk_nonneg (p : ud_pam R) : (1 <= ldtime p)%nat -> 0 <= akapa p -> 0 <= rakapafac p.
Proof.
  intros H1 H2. pose proof (dt_pos p H1). unfold rakapafac, rakapa. rnum. nra.
Qed.
Lemma wcfac_eq (p : ud_pam R) t : (1 <= ldtime p)%nat -> wcfac_of p t = upwell p t.
Proof.
  intro H. pose proof (ld_pos p H). unfold wcfac_of, upwell. rewrite dt_eq. unfold year_s, SEC_DAY, DAY_YEAR. rnum.
  rdec. destruct (Req_EM_T (threstemp p) 0) as [E|E]; field; lra.
Qed.
Lemma thick_dz (p : ud_pam R) i : dz p i = thick p i.
Proof. destruct i; reflexivity. Qed.
Lemma sumn_ext f g n : (forall i, (i < n)%nat -> f i = g i) -> sumn f n = sumn g n.
Proof. induction n; intro H; [reflexivity|]. cbn [sumn]. rewrite IHn, H by (intros; try apply H; lia). reflexivity. Qed.
Lemma wsum_column (p : ud_pam R) x : wsum p x (lm p) = column p x.
Proof. unfold wsum, column. apply sumn_ext. intros. rewrite thick_dz. reflexivity. Qed.

(** the discriminant [gams gamn - blm^2] and the gam-fro factor *)
Section Gam.
Variable p : ud_pam R.
Variable rl : R.
Hypothesis Ha : admissible p.
Hypothesis Hrl : 0 <= rl.
Let b := ebbeta p / rlamdo p.
Let r := rl / rlamdo p.
Let gn := foan p + r + b.
Let gs := foas p + r + b.
Lemma b_nonneg : 0 <= b.
Proof. destruct Ha as [A1 A2 A3 A4 A5 A6 A7 A8 A9]. unfold b, Rdiv. apply Rmult_le_pos; [assumption|]. left. apply Rinv_0_lt_compat. assumption. Qed.
Lemma r_nonneg : 0 <= r.
Proof. destruct Ha as [A1 A2 A3 A4 A5 A6 A7 A8 A9]. unfold r, Rdiv. apply Rmult_le_pos; [assumption|]. left. apply Rinv_0_lt_compat. assumption. Qed.
Lemma det_pos : 0 < gs * gn - b * b.
Proof. destruct Ha as [A1 A2 A3 A4 A5 A6 A7 A8 A9]. pose proof b_nonneg. pose proof r_nonneg. unfold gs, gn. nra. Qed.
Lemma gam_nonneg_n : 0 <= gam_fro p gn gs (foan p).
Proof.
  destruct Ha as [A1 A2 A3 A4 A5 A6 A7 A8 A9]. pose proof b_nonneg. pose proof r_nonneg. pose proof det_pos as Hd. pose proof c1_pos.
  pose proof (dt_pos p A2).
  unfold gam_fro. fold b. cbn [dz]. rnum.
  assert (Hge : 0 <= 1 - foan p * gs / (gs * gn - b * b)).
  { apply (Rmult_le_reg_r (gs * gn - b * b)); [exact Hd|]. rewrite Rmult_0_l.
    replace ((1 - foan p * gs / (gs * gn - b * b)) * (gs * gn - b * b)) with (gs * gn - b * b - foan p * gs) by (field; lra).
    unfold gs, gn. nra. }
  unfold Rdiv at 1. apply Rmult_le_pos; [|left; apply Rinv_0_lt_compat, Rmult_lt_0_compat; assumption].
  apply Rmult_le_pos; [|left; assumption]. apply Rmult_le_pos; [left; assumption|exact Hge].
Qed.
Lemma gam_nonneg_s : 0 <= gam_fro p gs gn (foas p).
Proof.
  destruct Ha as [A1 A2 A3 A4 A5 A6 A7 A8 A9]. pose proof b_nonneg. pose proof r_nonneg. pose proof det_pos as Hd. pose proof c1_pos.
  pose proof (dt_pos p A2). assert (Hd' : 0 < gn * gs - b * b) by lra.
  unfold gam_fro. fold b. cbn [dz]. rnum.
  assert (Hge : 0 <= 1 - foas p * gn / (gn * gs - b * b)).
  { apply (Rmult_le_reg_r (gn * gs - b * b)); [exact Hd'|]. rewrite Rmult_0_l.
    replace ((1 - foas p * gn / (gn * gs - b * b)) * (gn * gs - b * b)) with (gn * gs - b * b - foas p * gn) by (field; lra).
    unfold gs, gn. nra. }
  unfold Rdiv at 1. apply Rmult_le_pos; [|left; apply Rinv_0_lt_compat, Rmult_lt_0_compat; assumption].
  apply Rmult_le_pos; [|left; assumption]. apply Rmult_le_pos; [left; assumption|exact Hge].
Qed.
End Gam.

(** ** the right-hand sides *)
Section Rhs.
Variable p : ud_pam R.
Hypothesis Hlm : (2 <= lm p)%nat.
Hypothesis Hmix : 0 < mixed p.
Variables (gn gs t1n t1s : R).
Variables (tn ts : list R) (dqn dqs : R).
Let w1 := setup_ebud1 p gn gs.
Let w2 := setup_ebud2 p gn gs t1n t1s.
Let b := ebbeta p / rlamdo p.
Let det := gs * gn - b * b.

Lemma rhs_n_sum :
  wsum p (rhs_n p w1 w2 tn ts dqn dqs) (lm p) =
  wsum p tn (lm p) + beto p * (dt p / c1) * sumn (fun i => nth i ts 0 - nth i tn 0) (lm p)
  + dt p / c1 * (foas p * ebbeta p / det * nth 0 ts 0 + gs / det * dqn + b / det * dqs).
Proof.
  pose proof c1_pos as Hc.
  assert (Hpart : forall n, (S n < lm p)%nat ->
    wsum p (rhs_n p w1 w2 tn ts dqn dqs) (S n) =
    wsum p tn (S n) + beto p * (dt p / c1) * sumn (fun i => nth i ts 0 - nth i tn 0) (S n)
    + dt p / c1 * (foas p * ebbeta p / det * nth 0 ts 0 + gs / det * dqn + b / det * dqs)
    - cpi p * wcfac_of p t1n * nth 0 tn 0).
  { induction n as [|n IH]; intro Hn.
    - unfold wsum, rhs_n. cbn [sumn]. rewrite nth_tab by lia. cbn [Nat.eqb dz]. unfold w1, w2.
      cbn [setup_ebud1 setup_ebud2 dtrm1n dtrm2n dtrm3n dtrm4n dz]. rnum. rewrite !Rmult_1_l.
      fold b. fold det.
      unfold Rdiv. rewrite !Rinv_mult.
      generalize (/ det); intro id. field. split; lra.
    - unfold wsum in *. cbn [sumn] in IH |- *. rewrite IH by lia. unfold rhs_n. rewrite nth_tab by lia.
      cbn [Nat.eqb]. destruct (Nat.ltb_spec (S n) (lm p - 1)); [|lia]. cbn [dz]. rnum.
      match goal with |- context [dt p / c1 * (?X)] => generalize (dt p / c1 * X); intro end.
      field. lra. }
  set (n := (lm p - 2)%nat). assert (En : lm p = S (S n)) by lia. specialize (Hpart n ltac:(lia)).
  replace (wsum p (rhs_n p w1 w2 tn ts dqn dqs) (lm p)) with (wsum p (rhs_n p w1 w2 tn ts dqn dqs) (S (S n))) by (rewrite <- En; reflexivity).
  rewrite En. unfold wsum in *. cbn [sumn] in Hpart |- *. rewrite Hpart.
  unfold rhs_n. rewrite nth_tab by lia. cbn [Nat.eqb]. destruct (Nat.ltb_spec (S n) (lm p - 1)); [lia|].
  unfold w1, w2. cbn [setup_ebud1 setup_ebud2 dtmnl1 dtmnl2 dtmnl3].
  replace (lm p - 1)%nat with (S n) by lia. cbn [dz]. rnum.
  match goal with |- context [dt p / c1 * (?X)] => generalize (dt p / c1 * X); intro end.
  field. lra.
Qed.

Lemma rhs_s_sum :
  wsum p (rhs_s p w1 w2 tn ts dqn dqs) (lm p) =
  wsum p ts (lm p) + foan p / foas p * beto p * (dt p / c1) * sumn (fun i => nth i tn 0 - nth i ts 0) (lm p)
  + dt p / c1 * (foan p * ebbeta p / det * nth 0 tn 0 + gn / det * dqs + b / det * dqn).
Proof.
  pose proof c1_pos as Hc.
  assert (Hpart : forall n, (S n < lm p)%nat ->
    wsum p (rhs_s p w1 w2 tn ts dqn dqs) (S n) =
    wsum p ts (S n) + foan p / foas p * beto p * (dt p / c1) * sumn (fun i => nth i tn 0 - nth i ts 0) (S n)
    + dt p / c1 * (foan p * ebbeta p / det * nth 0 tn 0 + gn / det * dqs + b / det * dqn)
    - cpi p * wcfac_of p t1s * nth 0 ts 0).
  { induction n as [|n IH]; intro Hn.
    - unfold wsum, rhs_s. cbn [sumn]. rewrite nth_tab by lia. cbn [Nat.eqb dz]. unfold w1, w2.
      cbn [setup_ebud1 setup_ebud2 dtrm1s dtrm2s dtrm3s dtrm4s dz]. unfold fnso. rnum. rewrite !Rmult_1_l, !Rmult_1_r.
      fold b. fold det.
      unfold Rdiv. rewrite !Rinv_mult.
      generalize (/ det); intro id. generalize (/ foas p); intro ifs. field. split; lra.
    - unfold wsum in *. cbn [sumn] in IH |- *. rewrite IH by lia. unfold rhs_s. rewrite nth_tab by lia.
      cbn [Nat.eqb]. destruct (Nat.ltb_spec (S n) (lm p - 1)); [|lia]. cbn [dz]. unfold fnso. rnum.
      match goal with |- context [dt p / c1 * (?X)] => generalize (dt p / c1 * X); intro end.
      unfold Rdiv. generalize (/ foas p); intro ifs. field. lra. }
  set (n := (lm p - 2)%nat). assert (En : lm p = S (S n)) by lia. specialize (Hpart n ltac:(lia)).
  replace (wsum p (rhs_s p w1 w2 tn ts dqn dqs) (lm p)) with (wsum p (rhs_s p w1 w2 tn ts dqn dqs) (S (S n))) by (rewrite <- En; reflexivity).
  rewrite En. unfold wsum in *. cbn [sumn] in Hpart |- *. rewrite Hpart.
  unfold rhs_s. rewrite nth_tab by lia. cbn [Nat.eqb]. destruct (Nat.ltb_spec (S n) (lm p - 1)); [lia|].
  unfold w1, w2. cbn [setup_ebud1 setup_ebud2 dtmsl1 dtmsl2 dtmsl3].
  replace (lm p - 1)%nat with (S n) by lia. cbn [dz]. unfold fnso. rnum.
  match goal with |- context [dt p / c1 * (?X)] => generalize (dt p / c1 * X); intro end.
  unfold Rdiv. generalize (/ foas p); intro ifs. field. lra.
Qed.
End Rhs.
