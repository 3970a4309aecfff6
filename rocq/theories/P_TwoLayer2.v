(** * P_TwoLayer2: feedback, volcanic forcing and heat-content diagnostics *)
From Coq Require Import Reals List Lra Lia.
From Verif Require Import Num M_TwoLayer Spec_TwoLayer Spec_TwoLayerRuns P_TwoLayer.
Import ListNotations.
Open Scope R_scope.

(** C13, two-layer: any [Num]. *)
Lemma c13_tl {A} {N : Num A} (p : tl_pam A) s ws w :
  tl_set_feedback p (fold_left (tl_set_feedback p) ws s) w =
    {| temp_fast := temp_fast s; temp_slow := temp_slow s;
       lambda_eff := nadd (tl_lambda p) (nmul w (tl_delta p)) |}.
Proof.
  unfold tl_set_feedback at 1. f_equal.
  - revert s; induction ws as [|x ws IH]; intros s; simpl; [reflexivity|]. rewrite IH; reflexivity.
  - revert s; induction ws as [|x ws IH]; intros s; simpl; [reflexivity|]. rewrite IH; reflexivity.
Qed.

Lemma c13_tl_gate (p : tl_pam R) s w w' : tl_delta p = 0 ->
  tl_set_feedback p s w = tl_set_feedback p s w' /\ lambda_eff (tl_set_feedback p s w) = tl_lambda p.
Proof. intros H. unfold tl_set_feedback; cbn [lambda_eff]. rewrite H. rnum. split; [f_equal; ring | ring]. Qed.

(** C14 *)
Lemma c14 p s (w nh sh d : R) vn vs : length vn = length vs -> tl_mixed p <> 0 ->
  let reported := (rmean vn + rmean vs) / 2 in
  let with_volc := snd (tl_year p s {| i_w := w; i_nh := nh; i_sh := sh; i_vn := vn; i_vs := vs |}) in
  let with_extra := snd (tl_year p s {| i_w := w; i_nh := nh + d; i_sh := sh + d; i_vn := []; i_vs := [] |}) in
  (d = 2 * reported -> with_volc = with_extra) /\ (o_fast with_volc = o_fast with_extra -> d = 2 * reported).
Proof.
  intros L Hm reported wv we.
  assert (E1 : tl_forc nh sh vn vs = (nh + sh) / 2 + 2 * reported) by (rewrite forc_eq by exact L; unfold reported; lra).
  assert (E2 : tl_forc (nh + d) (sh + d) [] [] = (nh + sh) / 2 + d).
  { rewrite forc_eq by reflexivity. unfold rmean, rsum; simpl. unfold Rdiv. rewrite Rmult_0_l. field. }
  split.
  - intros Hd. unfold wv, we, tl_year, tl_energy_budget; cbn [i_w i_nh i_sh i_vn i_vs snd].
    rewrite E1, E2, Hd. reflexivity.
  - intros H. unfold wv, we in H.
    pose proof (year_out p s {| i_w := w; i_nh := nh; i_sh := sh; i_vn := vn; i_vs := vs |}) as Y1.
    pose proof (year_out p s {| i_w := w; i_nh := nh + d; i_sh := sh + d; i_vn := []; i_vs := [] |}) as Y2.
    cbn zeta in Y1, Y2. destruct Y1 as (_ & _ & _ & A4 & _). destruct Y2 as (_ & _ & _ & B4 & _).
    rewrite A4, B4 in H. unfold in_forc, in_lambda in H; cbn [i_w i_nh i_sh i_vn i_vs] in H.
    rewrite E1, E2 in H. apply cap_nz in Hm. set (c := capacity (tl_mixed p)) in *.
    match type of H with ?a + ?x / c = ?a + ?y / c => assert (Q : x = y) end.
    { apply Rplus_eq_reg_l in H. apply Rmult_eq_reg_r with (/ c); [exact H | apply Rinv_neq_0_compat, Hm]. }
    lra.
Qed.

(** C15 *)
Lemma cap_scale d x : capacity (d * x) = capacity d * x.
Proof. unfold capacity; field. Qed.

Lemma ohc700_eq (p : tl_pam R) tf ts : 0 < tl_mixed p -> 0 < tl_deep p ->
  tl_ohc700 p (tf * capacity (tl_mixed p) * joule22) (ts * capacity (tl_deep p) * joule22) =
  heat_above 700 (tl_mixed p) (tl_deep p) tf ts.
Proof.
  intros Hm Hd. unfold tl_ohc700, heat_above. rnum.
  set (m := tl_mixed p) in *. set (d := tl_deep p) in *.
  destruct (Rle_dec 700 m) as [H|H].
  - rewrite (Rmin_left 700 m) by exact H. rewrite (Rmax_left 0 (700 - m)) by lra.
    rewrite Rmin_left by lra. unfold capacity. field. lra.
  - rewrite (Rmin_right 700 m) by lra. rewrite (Rmax_right 0 (700 - m)) by lra.
    destruct (Rlt_dec 1 ((700 - m) / d)) as [G|G].
    + assert (d < 700 - m).
      { apply Rmult_lt_compat_r with (r := d) in G; [|exact Hd]. unfold Rdiv in G.
        rewrite Rmult_assoc, Rinv_l in G by lra. lra. }
      rewrite Rmin_right by lra. ring.
    + assert (700 - m <= d).
      { apply Rnot_lt_le in G. apply Rmult_le_compat_r with (r := d) in G; [|lra]. unfold Rdiv in G.
        rewrite Rmult_assoc, Rinv_l in G by lra. lra. }
      rewrite Rmin_left by lra. unfold capacity. field. lra.
Qed.

Lemma c15 p s i : 0 < tl_mixed p -> 0 < tl_deep p ->
  let o := snd (tl_year p s i) in
  o_OHC_MIXED o + o_OHC_DEEP o = o_OHCTOT o /\
  o_OHC700 o = heat_above 700 (tl_mixed p) (tl_deep p) (o_fast o) (o_slow o) /\
  o_OHCTOT o = heat_above (tl_mixed p + tl_deep p) (tl_mixed p) (tl_deep p) (o_fast o) (o_slow o) /\
  (0 <= o_fast o -> 0 <= o_slow o -> 0 <= o_OHC700 o <= o_OHCTOT o) /\
  (tl_mixed p + tl_deep p <= 700 -> o_OHC700 o = o_OHCTOT o).
Proof.
  intros Hm Hd o. pose proof (year_out p s i) as Y. cbn zeta in Y. fold o in Y.
  destruct Y as (_ & _ & _ & A4 & A5 & _ & _ & A8 & A9 & A10 & _ & A12).
  rewrite <- A4, <- A5 in *. rewrite ohc700_eq in A12 by assumption.
  assert (J : 0 < joule22) by (unfold joule22; lra).
  assert (C : forall z, capacity z = z * (1000 * 4184 / (86400 * 365))) by (intros; unfold capacity; field).
  assert (T : o_OHCTOT o = heat_above (tl_mixed p + tl_deep p) (tl_mixed p) (tl_deep p) (o_fast o) (o_slow o)).
  { rewrite A10. unfold heat_above. rewrite Rmin_right by lra. rewrite Rmax_right by lra.
    replace (tl_mixed p + tl_deep p - tl_mixed p) with (tl_deep p) by ring.
    rewrite Rmin_left by lra. ring. }
  split; [rewrite A8, A9, A10; ring|]. split; [exact A12|]. split; [exact T|]. split.
  - intros Hf Hs. rewrite A12, A10. unfold heat_above. rewrite !C.
    set (c := 1000 * 4184 / (86400 * 365)). assert (Pc : 0 < c) by (unfold c; lra).
    set (x := Rmin 700 (tl_mixed p)). set (y := Rmin (Rmax 0 (700 - tl_mixed p)) (tl_deep p)).
    assert (Hx : 0 <= x <= tl_mixed p) by (unfold x; split; [apply Rmin_glb; lra | apply Rmin_r]).
    assert (Hy : 0 <= y <= tl_deep p) by (unfold y; split; [apply Rmin_glb; [apply Rmax_l|lra] | apply Rmin_r]).
    assert (P1 : 0 <= x * c * o_fast o <= o_fast o * (tl_mixed p * c)).
    { split; [repeat apply Rmult_le_pos; lra|].
      replace (x * c * o_fast o) with (o_fast o * (x * c)) by ring.
      apply Rmult_le_compat_l; [exact Hf|]. apply Rmult_le_compat_r; lra. }
    assert (P2 : 0 <= y * c * o_slow o <= o_slow o * (tl_deep p * c)).
    { split; [repeat apply Rmult_le_pos; lra|].
      replace (y * c * o_slow o) with (o_slow o * (y * c)) by ring.
      apply Rmult_le_compat_l; [exact Hs|]. apply Rmult_le_compat_r; lra. }
    split; [apply Rmult_le_pos; lra|]. apply Rmult_le_compat_r; lra.
  - intros H. rewrite A12, T. unfold heat_above.
    rewrite (Rmin_right 700), (Rmin_right (tl_mixed p + tl_deep p)) by lra.
    rewrite !(Rmax_right 0) by lra. rewrite !Rmin_right by lra. reflexivity.
Qed.

(** Convergence, assembled: the input of every year has forcing [F] and feedback [lam]. *)
Lemma c12_main (p : tl_pam R) (F lam : R) (ins : nat -> tl_in R) (s : tl_state R) :
  (forall n, length (i_vn (ins n)) = length (i_vs (ins n)) /\
     (i_nh (ins n) + i_sh (ins n)) / 2 + (rmean (i_vn (ins n)) + rmean (i_vs (ins n))) = F) ->
  (forall n, tl_lambda p + i_w (ins n) * tl_delta p = lam) ->
  0 < lam -> 0 < tl_k p -> 0 < tl_eff p ->
  lam + tl_k p * tl_eff p <= capacity (tl_mixed p) -> tl_k p <= capacity (tl_deep p) ->
  let st := states p ins s in
  (forall lo hi n, lo <= F / lam <= hi -> lo <= temp_fast s <= hi -> lo <= temp_slow s <= hi ->
     lo <= temp_fast (st n) <= hi /\ lo <= temp_slow (st n) <= hi) /\
  (exists r d C, 0 <= r < 1 /\ forall n,
     Rabs (temp_fast (st n) - F / lam) <= C * r ^ n /\ Rabs (temp_slow (st n) - F / lam) <= d * C * r ^ n) /\
  Un_cv (fun n => temp_fast (st n)) (F / lam) /\
  Un_cv (fun n => temp_slow (st n)) (F / lam) /\
  Un_cv (fun n => o_dtemp (snd (tl_year p (st n) (ins n)))) (F / lam).
Proof.
  intros HF HL Hlam Hk He Hcf Hcs st.
  assert (HF' : forall n, in_forc (ins n) = F).
  { intros n. destruct (HF n) as [L E]. unfold in_forc. rewrite forc_eq by exact L. exact E. }
  assert (HL' : forall n, in_lambda p (ins n) = lam) by exact HL.
  split; [|split].
  - intros lo hi n H0 H1 H2. exact (interval p F lam ins HF' HL' Hlam Hk He Hcf Hcs s lo hi n H0 H1 H2).
  - exists (rho p lam), (1 + delta p lam), (nrm p F lam s). split; [exact (rho_range p lam Hlam Hk He Hcf Hcs)|].
    intros n. destruct (c12_bound p F lam ins HF' HL' Hlam Hk He Hcf Hcs s n) as [B1 B2]. unfold st. split.
    + rewrite Rmult_comm. exact B1.
    + replace ((1 + delta p lam) * nrm p F lam s * rho p lam ^ n)
        with ((1 + delta p lam) * (rho p lam ^ n * nrm p F lam s)) by ring. exact B2.
  - exact (c12_limits p F lam ins HF' HL' Hlam Hk He Hcf Hcs s).
Qed.

(** Explicit ratio, for the statement. *)
Lemma c12_ratio (p : tl_pam R) (F lam : R) (ins : nat -> tl_in R) (s : tl_state R) :
  (forall n, length (i_vn (ins n)) = length (i_vs (ins n)) /\
     (i_nh (ins n) + i_sh (ins n)) / 2 + (rmean (i_vn (ins n)) + rmean (i_vs (ins n))) = F) ->
  (forall n, tl_lambda p + i_w (ins n) * tl_delta p = lam) ->
  0 < lam -> 0 < tl_k p -> 0 < tl_eff p ->
  lam + tl_k p * tl_eff p <= capacity (tl_mixed p) -> tl_k p <= capacity (tl_deep p) ->
  let st := states p ins s in
  let d := lam / (2 * (tl_k p * tl_eff p)) in
  let r := Rmax (1 - lam / (2 * capacity (tl_mixed p))) (1 - tl_k p / capacity (tl_deep p) * (d / (1 + d))) in
  let C := Rmax (Rabs (temp_fast s - F / lam)) (Rabs (temp_slow s - F / lam) / (1 + d)) in
  0 <= r < 1 /\ forall n,
     Rabs (temp_fast (st n) - F / lam) <= r ^ n * C /\ Rabs (temp_slow (st n) - F / lam) <= (1 + d) * (r ^ n * C).
Proof.
  intros HF HL Hlam Hk He Hcf Hcs st d r C.
  assert (HF' : forall n, in_forc (ins n) = F).
  { intros n. destruct (HF n) as [L E]. unfold in_forc. rewrite forc_eq by exact L. exact E. }
  assert (HL' : forall n, in_lambda p (ins n) = lam) by exact HL.
  split; [exact (rho_range p lam Hlam Hk He Hcf Hcs)|].
  intros n. exact (c12_bound p F lam ins HF' HL' Hlam Hk He Hcf Hcs s n).
Qed.

(** [states] is what the run reports. *)
Lemma states_run p ins s n : forall m, (m < n)%nat ->
  nth_error (tl_run p s (map ins (seq 0 n))) m = Some (snd (tl_year p (states p ins s m) (ins m))).
Proof.
  intros m Hm.
  assert (G : forall k j s0, (m < k)%nat -> s0 = states p ins s j ->
    nth_error (tl_run p s0 (map ins (seq j k))) m = Some (snd (tl_year p (states p ins s (j + m)) (ins (j + m)%nat)))).
  2:{ apply (G n 0%nat s Hm eq_refl). }
  clear Hm. induction m as [|m IH]; intros k j s0 Hk Hs; destruct k as [|k]; try lia; cbn [seq map tl_run].
  - subst s0. destruct (tl_year p (states p ins s j) (ins j)) eqn:Y. cbn [nth_error]. rewrite Nat.add_0_r, Y. reflexivity.
  - destruct (tl_year p s0 (ins j)) as [s' o] eqn:Y. cbn [nth_error].
    rewrite (IH k (S j) s'); [rewrite Nat.add_succ_r; reflexivity | lia |].
    cbn [states]. rewrite <- Hs, Y. reflexivity.
Qed.
