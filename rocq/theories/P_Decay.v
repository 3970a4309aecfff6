(** * P_Decay: the built-in decay functions (C111) *)
From Coq Require Import Reals ZArith List Bool Lra Lia Psatz.
From Verif Require Import Num M_RFuns M_Carbon Spec_UDM Spec_Carbon Spec_Decay P_Carbon2 P_Carbon4 P_RFuns.
Import ListNotations.
Open Scope R_scope.

(** exp (- x) between two sums of its series *)
Lemma pow_fact_dec x : 0 <= x <= 1 -> Un_decreasing (fun n => x ^ n / INR (fact n)).
Proof.
  intros [H0 H1] n. assert (F : 0 < INR (fact n)) by apply INR_fact_lt_0. rewrite fact_simpl, mult_INR, <- tech_pow_Rmult.
  assert (N : 1 <= INR (S n)) by (rewrite S_INR; pose proof (pos_INR n); lra). assert (P : 0 <= x ^ n) by (apply pow_le; exact H0).
  apply (Rmult_le_reg_r (INR (S n) * INR (fact n))); [nra|]. replace (x * x ^ n / (INR (S n) * INR (fact n)) * (INR (S n) * INR (fact n))) with (x * x ^ n) by (field; lra).
  replace (x ^ n / INR (fact n) * (INR (S n) * INR (fact n))) with (x ^ n * INR (S n)) by (field; lra). nra.
Qed.
Lemma exp_alt x : 0 <= x <= 1 -> forall N, sum_f_R0 (tg_alt (fun n => x ^ n / INR (fact n))) (S (2 * N)) <= exp (- x) <= sum_f_R0 (tg_alt (fun n => x ^ n / INR (fact n))) (2 * N).
Proof.
  intros H N. apply alternated_series_ineq; [apply pow_fact_dec; exact H|apply cv_speed_pow_fact|].
  assert (E : exp_in (- x) (exp (- x))) by (unfold exp; destruct (exist_exp (- x)) as [l L]; exact L). intros eps He. destruct (E eps He) as [M HM]. exists M. intros n Hn.
  replace (sum_f_R0 (tg_alt (fun k => x ^ k / INR (fact k))) n) with (sum_f_R0 (fun i => / INR (fact i) * (- x) ^ i) n); [apply HM; exact Hn|].
  apply sum_eq. intros i _. unfold tg_alt. replace (- x) with (-1 * x) by ring. rewrite Rpow_mult_distr. unfold Rdiv. ring.
Qed.
Definition low7 (x : R) : R := 1 - x * (1 - x / 2 * (1 - x / 3 * (1 - x / 4 * (1 - x / 5 * (1 - x / 6 * (1 - x / 7)))))).
Definition top8 (x : R) : R := 1 - x * (1 - x / 2 * (1 - x / 3 * (1 - x / 4 * (1 - x / 5 * (1 - x / 6 * (1 - x / 7 * (1 - x / 8))))))).
Lemma facts : forall n z, Z.of_nat (fact n) = z -> INR (fact n) = IZR z.
Proof. intros n z <-. apply INR_IZR_INZ. Qed.
Lemma exp_low x : 0 <= x <= 1 -> low7 x <= exp (- x) <= top8 x.
Proof.
  intros H. split.
  - destruct (exp_alt x H 3) as [L _]. eapply Rle_trans; [|exact L]. apply Req_le. cbn [sum_f_R0 Nat.mul Nat.add]. unfold tg_alt, low7.
    rewrite (facts 0 1), (facts 1 1), (facts 2 2), (facts 3 6), (facts 4 24), (facts 5 120), (facts 6 720), (facts 7 5040) by reflexivity. cbn [pow]. field.
  - destruct (exp_alt x H 4) as [_ L]. eapply Rle_trans; [exact L|]. apply Req_le. cbn [sum_f_R0 Nat.mul Nat.add]. unfold tg_alt, top8.
    rewrite (facts 0 1), (facts 1 1), (facts 2 2), (facts 3 6), (facts 4 24), (facts 5 120), (facts 6 720), (facts 7 5040), (facts 8 40320) by reflexivity. cbn [pow]. field.
Qed.
Lemma exp4 x a b : 0 <= x <= 4 -> 0 <= a <= low7 (x / 4) -> top8 (x / 4) <= b -> a ^ 4 <= exp (- x) <= b ^ 4.
Proof.
  intros H A B. assert (E : exp (- x) = exp (- (x / 4)) ^ 4) by (cbn [pow]; rewrite Rmult_1_r, <- !exp_plus; f_equal; lra). rewrite E.
  destruct (exp_low (x / 4) ltac:(lra)) as [L1 L2]. assert (P := exp_pos (- (x / 4))). split; apply pow_incr; lra.
Qed.

(** the two branches of the mixed-layer response *)
Definition early (t : R) : R :=
  12935 / 10 ^ 5 + 21898 / 10 ^ 5 * exp (- (t / (34569 / 10 ^ 6))) + 17003 / 10 ^ 5 * exp (- (t / (26936 / 10 ^ 5)))
  + 24071 / 10 ^ 5 * exp (- (t / (96083 / 10 ^ 5))) + 24093 / 10 ^ 5 * exp (- (t / (49792 / 10 ^ 4))).
Definition late (t : R) : R :=
  22936 / 10 ^ 6 + 24278 / 10 ^ 5 * exp (- (t / (12679 / 10 ^ 4))) + 13963 / 10 ^ 5 * exp (- (t / (52528 / 10 ^ 4)))
  + 89318 / 10 ^ 6 * exp (- (t / (18601 / 10 ^ 3))) + 3782 / 10 ^ 5 * exp (- (t / (68736 / 10 ^ 3))) + 35549 / 10 ^ 6 * exp (- (t / (2323 / 10))).
Lemma opp_div a b : - a / b = - (a / b).
Proof. unfold Rdiv. ring. Qed.
Lemma rs_is it idtm : rs_function it idtm = if Rlt_dec (it / idtm) 2 then early (it / idtm) else late (it / idtm).
Proof. unfold rs_function. rnum. rdec; destruct (Rlt_dec (it / idtm) 2); try lra; unfold early, late; rewrite !opp_div; cbn [pow]; rewrite ?Rmult_1_r; repeat f_equal; lra. Qed.
Lemma decay_lt c k t t' : 0 < c -> 0 < k -> t < t' -> c * exp (- (t' / k)) < c * exp (- (t / k)).
Proof.
  intros C K L. apply Rmult_lt_compat_l; [exact C|]. apply exp_increasing. assert (t / k < t' / k); [|lra]. unfold Rdiv. apply Rmult_lt_compat_r; [apply Rinv_0_lt_compat; exact K|exact L].
Qed.
Lemma early_lt t t' : t < t' -> early t' < early t.
Proof.
  intros L. unfold early.
  assert (A0 := decay_lt (21898 / 10 ^ 5) (34569 / 10 ^ 6) t t' ltac:(lra) ltac:(lra) L).
  assert (A1 := decay_lt (17003 / 10 ^ 5) (26936 / 10 ^ 5) t t' ltac:(lra) ltac:(lra) L).
  assert (A2 := decay_lt (24071 / 10 ^ 5) (96083 / 10 ^ 5) t t' ltac:(lra) ltac:(lra) L).
  assert (A3 := decay_lt (24093 / 10 ^ 5) (49792 / 10 ^ 4) t t' ltac:(lra) ltac:(lra) L).
  lra.
Qed.
Lemma late_lt t t' : t < t' -> late t' < late t.
Proof.
  intros L. unfold late.
  assert (A0 := decay_lt (24278 / 10 ^ 5) (12679 / 10 ^ 4) t t' ltac:(lra) ltac:(lra) L).
  assert (A1 := decay_lt (13963 / 10 ^ 5) (52528 / 10 ^ 4) t t' ltac:(lra) ltac:(lra) L).
  assert (A2 := decay_lt (89318 / 10 ^ 6) (18601 / 10 ^ 3) t t' ltac:(lra) ltac:(lra) L).
  assert (A3 := decay_lt (3782 / 10 ^ 5) (68736 / 10 ^ 3) t t' ltac:(lra) ltac:(lra) L).
  assert (A4 := decay_lt (35549 / 10 ^ 6) (2323 / 10) t t' ltac:(lra) ltac:(lra) L).
  lra.
Qed.
Lemma late_low t : 22936 / 10 ^ 6 < late t.
Proof.
  unfold late. assert (P : forall x, 0 < exp x) by apply exp_pos. assert (P1 := P (- (t / (12679 / 10 ^ 4)))). assert (P2 := P (- (t / (52528 / 10 ^ 4)))). assert (P3 := P (- (t / (18601 / 10 ^ 3)))).
  assert (P4 := P (- (t / (68736 / 10 ^ 3)))). assert (P5 := P (- (t / (2323 / 10)))). lra.
Qed.
Lemma exp_twice x : exp (- x) = exp (- (x / 2)) ^ 2.
Proof. cbn [pow]. rewrite Rmult_1_r, <- exp_plus. f_equal. lra. Qed.
Lemma at_two : 26 / 10 ^ 6 < early 2 - late 2 < 28 / 10 ^ 6.
Proof.
  assert (A1 : 0 < exp (- (2 / (34569 / 10 ^ 6))) <= 1 / 10 ^ 8).
  { split; [apply exp_pos|]. apply Rle_trans with (exp (- 20)); [apply exp_le; lra|]. replace (exp (- 20)) with (exp (- 4) ^ 5) by (cbn [pow]; rewrite Rmult_1_r, <- !exp_plus; f_equal; lra).
    destruct (exp4 4 (367 / 1000) (368 / 1000)) as [_ U]; [lra|unfold low7; lra|unfold top8; lra|]. apply Rle_trans with (((368 / 1000) ^ 4) ^ 5); [apply pow_incr; split; [apply Rlt_le, exp_pos|exact U]|lra]. }
  assert (A2 : 0 <= exp (- (2 / (26936 / 10 ^ 5))) - 5957 / 10 ^ 7 <= 8 / 10 ^ 7).
  { rewrite exp_twice.
    destruct (exp4 (2 / (26936 / 10 ^ 5) / 2) (39527 / 10 ^ 5) (39531 / 10 ^ 5)) as [L U]; [lra|unfold low7; lra|unfold top8; lra|].
    set (e := exp (- (2 / (26936 / 10 ^ 5) / 2))) in *. assert (P1 : ((39527 / 10 ^ 5) ^ 4) ^ 2 <= e ^ 2) by (apply pow_incr; split; [lra|exact L]).
    assert (P2 : e ^ 2 <= ((39531 / 10 ^ 5) ^ 4) ^ 2) by (apply pow_incr; split; [unfold e; apply Rlt_le, exp_pos|exact U]). lra. }
  assert (B0 := exp4 (2 / (96083 / 10 ^ 5)) (5942925 / 10 ^ 7) (5942928 / 10 ^ 7) ltac:(lra) ltac:(unfold low7; lra) ltac:(unfold top8; lra)).
  assert (B1 := exp4 (2 / (49792 / 10 ^ 4)) (9044594 / 10 ^ 7) (9044597 / 10 ^ 7) ltac:(lra) ltac:(unfold low7; lra) ltac:(unfold top8; lra)).
  assert (B2 := exp4 (2 / (12679 / 10 ^ 4)) (6741160 / 10 ^ 7) (6741163 / 10 ^ 7) ltac:(lra) ltac:(unfold low7; lra) ltac:(unfold top8; lra)).
  assert (B3 := exp4 (2 / (52528 / 10 ^ 4)) (9092024 / 10 ^ 7) (9092027 / 10 ^ 7) ltac:(lra) ltac:(unfold low7; lra) ltac:(unfold top8; lra)).
  assert (B4 := exp4 (2 / (18601 / 10 ^ 3)) (9734776 / 10 ^ 7) (9734779 / 10 ^ 7) ltac:(lra) ltac:(unfold low7; lra) ltac:(unfold top8; lra)).
  assert (B5 := exp4 (2 / (68736 / 10 ^ 3)) (9927520 / 10 ^ 7) (9927523 / 10 ^ 7) ltac:(lra) ltac:(unfold low7; lra) ltac:(unfold top8; lra)).
  assert (B6 := exp4 (2 / (2323 / 10)) (9978498 / 10 ^ 7) (9978501 / 10 ^ 7) ltac:(lra) ltac:(unfold low7; lra) ltac:(unfold top8; lra)).
  unfold early, late. lra.
Qed.

Lemma tends_decays c k : 0 < k -> tends_to (fun t => c * exp (- (t / k))) 0.
Proof. intros K. replace 0 with (c * 0) by ring. apply tends_scale. apply (tends_arg (fun x => exp (- x)) 0 k K). exact tends_exp. Qed.
Lemma late_tends : tends_to late (22936 / 10 ^ 6).
Proof.
  replace (22936 / 10 ^ 6) with (22936 / 10 ^ 6 + 0 + 0 + 0 + 0 + 0) by ring. unfold late. repeat apply tends_add; try (apply tends_decays; lra). apply tends_const.
Qed.
Lemma early_cont : continuity early.
Proof.
  unfold early. assert (C : forall c k, continuity (fun t => c * exp (- (t / k)))).
  { intros c k. apply derivable_continuous. intros x. exists (c * (exp (- (x / k)) * (- (1 / k)))).
    apply (derivable_pt_lim_scal (fun t => exp (- (t / k)))). apply (derivable_pt_lim_comp (fun t => - (t / k)) exp); [|apply derivable_pt_lim_exp].
    replace (fun t => - (t / k)) with (mult_real_fct (- (1 / k)) id).
    - replace (- (1 / k)) with (- (1 / k) * 1) at 2 by ring. apply derivable_pt_lim_scal, derivable_pt_lim_id.
    - unfold mult_real_fct, id. apply FunctionalExtensionality.functional_extensionality. intros t. unfold Rdiv. ring. }
  assert (K : continuity (fun _ : R => 12935 / 10 ^ 5)) by (apply continuity_const; intros x y; reflexivity).
  repeat (apply (continuity_plus (fun t => _) (fun t => _)); [|apply C]). exact K.
Qed.

Section Steps.
Variable idtm : R.
Hypothesis ID : 0 < idtm.
Lemma over_lt x y : x < y -> x / idtm < y / idtm.
Proof. intros L. unfold Rdiv. apply Rmult_lt_compat_r; [apply Rinv_0_lt_compat; exact ID|exact L]. Qed.
Lemma two_years : 2 * idtm / idtm = 2.
Proof. field. lra. Qed.
Lemma rs_falls : falls_to (fun it => rs_function it idtm) (22936 / 10 ^ 6).
Proof.
  constructor.
  - apply rs_zero. lra.
  - intros x y [_ L]. apply over_lt in L. rewrite !rs_is. destruct (Rlt_dec (x / idtm) 2) as [X|X], (Rlt_dec (y / idtm) 2) as [Y|Y]; try lra.
    + apply early_lt. exact L.
    + assert (E := early_lt _ _ X). assert (T := at_two). destruct (Req_EM_T (y / idtm) 2) as [->|N]; [lra|]. assert (Q := late_lt 2 (y / idtm) ltac:(lra)). lra.
    + apply late_lt. exact L.
  - intros x. rewrite rs_is. destruct (Rlt_dec (x / idtm) 2) as [X|X]; [|apply late_low]. assert (E := early_lt _ _ X). assert (T := at_two). assert (Q := late_low 2). lra.
  - intros eps He. destruct (tends_arg late _ idtm ID late_tends eps He) as [T HT]. exists (Rmax T (2 * idtm)). intros t Lt. rewrite rs_is.
    assert (L1 := Rmax_l T (2 * idtm)). assert (L2 := Rmax_r T (2 * idtm)). destruct (Rlt_dec (t / idtm) 2) as [X|X]; [|apply HT; lra].
    exfalso. apply (Rmult_lt_compat_r idtm) in X; [|exact ID]. replace (t / idtm * idtm) with t in X by (field; lra). lra.
Qed.
Lemma rs_jump : exists l, left_limit (fun it => rs_function it idtm) (2 * idtm) l /\ 26 / 10 ^ 6 < l - rs_function (2 * idtm) idtm < 28 / 10 ^ 6.
Proof.
  exists (early 2). split.
  - intros eps He. destruct (early_cont 2 eps He) as (d & D & HD). exists (d * idtm). split; [nra|]. intros t [T1 T2]. rewrite rs_is.
    assert (Q := over_lt _ _ T2). rewrite two_years in Q. assert (Q' := over_lt _ _ T1). replace ((2 * idtm - d * idtm) / idtm) with (2 - d) in Q' by (field; lra).
    destruct (Rlt_dec (t / idtm) 2) as [_|N]; [|lra]. apply HD. split; [split; [exact Logic.I|lra]|]. cbn. unfold R_dist. rewrite Rabs_minus_sym, Rabs_pos_eq; lra.
  - rewrite rs_is, two_years. destruct (Rlt_dec 2 2) as [N|_]; [lra|]. exact at_two.
Qed.

Lemma rb_is it : rb_function it idtm = 70211 / 10 ^ 5 * exp (- (it / idtm / (20 / 7))) + 134141 / 10 ^ 7 * exp (- (it / idtm / 20))
  - 71846 / 10 ^ 5 * exp (- (it / idtm / (24 / 11))) + 29323 / 10 ^ 7 * exp (- (it / idtm / 100)).
Proof. unfold rb_function. rnum. rdec. cbn [pow]. repeat f_equal; lra. Qed.
Lemma rb_pos it : idtm / 10 ^ 4 <= it -> 0 < rb_function it idtm.
Proof.
  intros L. rewrite rb_is. set (t := it / idtm). assert (T : 1 / 10 ^ 4 <= t).
  { unfold t. apply (Rmult_le_reg_r idtm); [exact ID|]. replace (it / idtm * idtm) with it by (field; lra). lra. }
  set (e := exp (- (t / (20 / 7)))). assert (E : 0 < e) by apply exp_pos.
  assert (A : e <= exp (- (t / 20))) by (apply exp_le; lra). assert (B : e <= exp (- (t / 100))) by (apply exp_le; lra).
  set (x := t / (24 / 11) - t / (20 / 7)). assert (X : 108 / 10 ^ 3 * t <= x) by (unfold x; lra).
  assert (C : exp (- (t / (24 / 11))) = e * exp (- x)) by (unfold e, x; rewrite <- exp_plus; f_equal; lra).
  assert (D : exp (- x) <= / (1 + x)).
  { rewrite exp_Ropp. apply Rinv_le_contravar; [lra|]. apply exp_ineq1_le. }
  assert (F : / (1 + x) < 1 - 9 / 10 ^ 6).
  { apply (Rmult_lt_reg_r (1 + x)); [lra|]. rewrite Rinv_l by lra. assert (108 / 10 ^ 7 <= x) by lra. nra. }
  rewrite C. assert (G : e * exp (- x) < e * (1 - 9 / 10 ^ 6)) by (apply Rmult_lt_compat_l; lra). lra.
Qed.
Lemma piece k : 0 < k -> forall it, derivable_pt_lim (fun it => k * idtm * (1 - exp (- (it / idtm / k)))) it (exp (- (it / idtm / k))).
Proof.
  intros K it. assert (D2 : derivable_pt_lim (fun u => - (u / idtm / k)) it (- / (idtm * k))).
  { intros eps He. exists (mkposreal 1 Rlt_0_1). intros h Hh _. replace ((- ((it + h) / idtm / k) - - (it / idtm / k)) / h - - / (idtm * k)) with 0 by (field; repeat split; lra). rewrite Rabs_R0. exact He. }
  pose proof (derivable_pt_lim_comp _ exp it _ _ D2 (derivable_pt_lim_exp _)) as D3.
  pose proof (derivable_pt_lim_minus (fun _ => 1) _ it 0 _ (derivable_pt_lim_const 1 it) D3) as D4.
  pose proof (derivable_pt_lim_scal _ (k * idtm) _ _ D4) as D5.
  replace (exp (- (it / idtm / k))) with (k * idtm * (0 - exp (- (it / idtm / k)) * - / (idtm * k))) by (field; split; lra). exact D5.
Qed.
Lemma piece_tends k : 0 < k -> tends_to (fun it => k * idtm * (1 - exp (- (it / idtm / k)))) (k * idtm).
Proof.
  intros K. assert (Q : k * idtm * (1 + -1 * 0) = k * idtm) by ring. match goal with |- tends_to ?f _ => cut (tends_to f (k * idtm * (1 + -1 * 0))); [rewrite Q; intros Y; exact Y|clear Q] end. apply (tends_scale (k * idtm)). apply (tends_ext (fun it => 1 + -1 * exp (- (it / idtm / k)))); [intros; ring|].
  apply tends_add; [apply tends_const|]. apply tends_scale. apply (tends_arg (fun u => exp (- (u / k))) 0 idtm ID). apply (tends_arg (fun x => exp (- x)) 0 k K). exact tends_exp.
Qed.
Lemma rb_total : exists F L, F 0 = 0 /\ (forall it, derivable_pt_lim F it (rb_function it idtm)) /\ tends_to F (L * idtm) /\ 1 - 1 / 10 ^ 5 < L < 1.
Proof.
  set (P := fun k it => k * idtm * (1 - exp (- (it / idtm / k)))).
  exists (fun it => 70211 / 10 ^ 5 * P (20 / 7) it + 134141 / 10 ^ 7 * P 20 it + - (71846 / 10 ^ 5) * P (24 / 11) it + 29323 / 10 ^ 7 * P 100 it).
  exists (70211 / 10 ^ 5 * (20 / 7) + 134141 / 10 ^ 7 * 20 + - (71846 / 10 ^ 5) * (24 / 11) + 29323 / 10 ^ 7 * 100). split; [|split; [|split; [|lra]]].
  - unfold P. replace (0 / idtm) with 0 by (field; lra). unfold Rdiv. rewrite !Rmult_0_l, Ropp_0, exp_0. ring.
  - intros it. rewrite rb_is. replace (_ + _ - _ + _) with (70211 / 10 ^ 5 * exp (- (it / idtm / (20 / 7))) + 134141 / 10 ^ 7 * exp (- (it / idtm / 20)) + - (71846 / 10 ^ 5) * exp (- (it / idtm / (24 / 11))) + 29323 / 10 ^ 7 * exp (- (it / idtm / 100))) by ring.
    repeat apply (derivable_pt_lim_plus (fun it => _) (fun it => _)); apply derivable_pt_lim_scal; apply piece; lra.
  - match goal with |- tends_to _ ?l => replace l with (70211 / 10 ^ 5 * (20 / 7 * idtm) + 134141 / 10 ^ 7 * (20 * idtm) + - (71846 / 10 ^ 5) * (24 / 11 * idtm) + 29323 / 10 ^ 7 * (100 * idtm)) by ring end.
    repeat apply tends_add; apply tends_scale; apply piece_tends; lra.
Qed.
End Steps.

Lemma decay_table idtm years rs rb : (0 < idtm)%nat -> INR idtm <= 10000 -> precalc_r_functions idtm years None None = Some (rs, rb) ->
  decay_tables (idtm * years) (22936 / 10 ^ 6) (- (36 / 10000000)) rs rb.
Proof.
  intros I1 IM E. set (n := (idtm * years)%nat).
  assert (E1 : rs = tab n (fun i => rs_function (nofZ (Z.of_nat i)) (nofZ (Z.of_nat idtm)))) by (apply (f_equal (fun o => match o with Some (a, _) => a | None => [] end)) in E; symmetry; exact E).
  assert (E2 : rb = tab n (fun i => rb_function (nofZ (Z.of_nat i)) (nofZ (Z.of_nat idtm)))) by (apply (f_equal (fun o => match o with Some (_, a) => a | None => [] end)) in E; symmetry; exact E).
  clear E. subst rs rb.
  assert (ID : 0 < INR idtm) by (apply lt_0_INR; exact I1).
  destruct (rs_falls (INR idtm) ID) as [F1 F2 F3 _].
  assert (T : forall (f : R -> R -> R) i x, nth_error (tab n (fun i => f (nofZ (Z.of_nat i)) (nofZ (Z.of_nat idtm)))) i = Some x -> x = f (INR i) (INR idtm)).
  { intros f i x Q. assert (L : (i < n)%nat) by (rewrite <- (tab_len n (fun i => f (nofZ (Z.of_nat i)) (nofZ (Z.of_nat idtm)))); apply nth_error_Some; congruence).
    rewrite (nth_error_nth' _ 0) in Q by (rewrite tab_len; exact L). injection Q as <-. rewrite tab_nth by exact L. rnum. rewrite <- !INR_IZR_INZ. reflexivity. }
  constructor.
  - split; apply tab_len.
  - intros i j x y L X Y. apply (T rs_function) in X. apply (T rs_function) in Y. subst. apply F2. split; [apply pos_INR|apply lt_INR; exact L].
  - intros i x X. apply (T rs_function) in X. subst x. split; [split; [apply F3|]|intros ->; exact F1]. destruct i as [|i]; [rewrite <- F1; apply Rle_refl|].
    rewrite <- F1. left. apply F2. split; [apply Rle_refl|apply lt_0_INR; lia].
  - intros i x X. apply (T rb_function) in X. subst x. split; [intros ->; apply rb_zero; lra|]. intros L. apply rb_pos; [exact ID|].
    assert (1 <= INR i) by (replace 1 with (INR 1) by reflexivity; apply le_INR; lia). lra.
Qed.

Lemma at_step_three : Rabs (rs_function 3 24 - 6884435390654896 / 10 ^ 16) <= 1 / 10 ^ 6.
Proof.
  rewrite rs_is. destruct (Rlt_dec (3 / 24) 2) as [_|N]; [|lra].
  assert (B0 := exp4 (3 / 24 / (34569 / 10 ^ 6)) (404936 / 10 ^ 6) (404954 / 10 ^ 6) ltac:(lra) ltac:(unfold low7; lra) ltac:(unfold top8; lra)).
  assert (B1 := exp4 (3 / 24 / (26936 / 10 ^ 5)) (89046118 / 10 ^ 8) (89046122 / 10 ^ 8) ltac:(lra) ltac:(unfold low7; lra) ltac:(unfold top8; lra)).
  assert (B2 := exp4 (3 / 24 / (96083 / 10 ^ 5)) (96799923 / 10 ^ 8) (96799927 / 10 ^ 8) ltac:(lra) ltac:(unfold low7; lra) ltac:(unfold top8; lra)).
  assert (B3 := exp4 (3 / 24 / (49792 / 10 ^ 4)) (99374352 / 10 ^ 8) (99374356 / 10 ^ 8) ltac:(lra) ltac:(unfold low7; lra) ltac:(unfold top8; lra)).
  unfold early. apply Rabs_le. lra.
Qed.
