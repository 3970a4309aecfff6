(** * P_UDM10: statements assembled for Properties_UDM *)
From Coq Require Import Reals ZArith List Lra Lia Bool.
From Verif Require Import Num M_TwoLayer M_UDM Spec_TwoLayer Spec_TwoLayerRuns Spec_UDM Spec_UDMRuns P_TwoLayer P_UDM P_UDM2 P_UDM3 P_UDM4 P_UDM5 P_UDM6 P_UDM7 P_UDM8 P_UDM9.
Import ListNotations.
Open Scope R_scope.

Lemma system_solvable p rl t u d : admissible p -> 0 <= rl -> small_upwell p t -> small_upwell p u -> length d = lm p ->
  let gn := foan p + rl / rlamdo p + ebbeta p / rlamdo p in
  let gs := foas p + rl / rlamdo p + ebbeta p / rlamdo p in
  let v := setup_ebud2 p gn gs t u in
  (solves (acoefn v) (bcoefn v) (ccoefn v) d (band (acoefn v) (bcoefn v) (ccoefn v) d) /\
   (forall x, solves (acoefn v) (bcoefn v) (ccoefn v) d x -> x = band (acoefn v) (bcoefn v) (ccoefn v) d) /\
   forall i, (i < lm p)%nat -> 0 < pivot (acoefn v) (bcoefn v) (ccoefn v) i) /\
  (solves (acoefs v) (bcoefs v) (ccoefs v) d (band (acoefs v) (bcoefs v) (ccoefs v) d) /\
   (forall x, solves (acoefs v) (bcoefs v) (ccoefs v) d x -> x = band (acoefs v) (bcoefs v) (ccoefs v) d) /\
   forall i, (i < lm p)%nat -> 0 < pivot (acoefs v) (bcoefs v) (ccoefs v) i).
Proof.
  intros Ha Hrl [T1 T2] [U1 U2] Hd gn gs v.
  pose proof (ad_lm _ Ha) as A1. pose proof (ad_ld _ Ha) as A2. pose proof (ad_mixed _ Ha) as A3.
  pose proof (rk_nonneg p A2 (ad_akapa _ Ha)) as Hrk. pose proof (ad_eff _ Ha) as A8.
  assert (D1 : Forall dom (band_rows (acoefn v) (bcoefn v) (ccoefn v) d)).
  { unfold v, setup_ebud2. cbn [acoefn bcoefn ccoefn]. rewrite wcfac_eq by exact A2.
    apply sys_dom; try assumption. apply gam_nonneg_n; assumption. }
  assert (D2 : Forall dom (band_rows (acoefs v) (bcoefs v) (ccoefs v) d)).
  { unfold v, setup_ebud2. cbn [acoefs bcoefs ccoefs]. rewrite wcfac_eq by exact A2.
    apply sys_dom; try assumption. apply gam_nonneg_s; assumption. }
  split; (split; [apply band_solves; assumption|split]).
  - intros x Hx. eapply solves_unique; [exact D1|exact Hx|apply band_solves; exact D1].
  - rewrite <- Hd. apply (pivot_rows _ _ _ d). exact D1.
  - intros x Hx. eapply solves_unique; [exact D2|exact Hx|apply band_solves; exact D2].
  - rewrite <- Hd. apply (pivot_rows _ _ _ d). exact D2.
Qed.

(** one sub-step of a year, in terms of the loop variables before and after *)
Lemma substep_heat p s fnh fsh vn vs k : refreshed p s -> admissible p -> 0 <= u_rlamda s ->
  efficacy p = 1 -> ebbeta p = 0 ->
  let x := year_acc p s fnh fsh vn vs k in
  let x' := year_acc p s fnh fsh vn vs (S k) in
  small_upwell p (x_t1n x) -> small_upwell p (x_t1s x) ->
  exists air_n air_s,
    x_an x' = x_an x + air_n / INR (ldtime p) /\ x_as x' = x_as x + air_s / INR (ldtime p) /\
    ocean p (x_tn x') (x_ts x') - ocean p (x_tn x) (x_ts x) =
      year_s / INR (ldtime p) / c_solver *
        (foan p * rlamdo p * (air_n - nth 0 (x_tn x') 0) + foas p * rlamdo p * (air_s - nth 0 (x_ts x') 0)) /\
    foan p * rlamdo p * (air_n - nth 0 (x_tn x') 0) =
      dq p k fnh (u_pfn s) vn (Nat.modulo k (length vn)) - u_rlamda s * air_n /\
    foas p * rlamdo p * (air_s - nth 0 (x_ts x') 0) =
      dq p k fsh (u_pfs s) vs (Nat.modulo k (length vn)) - u_rlamda s * air_s.
Proof.
  intros Href Ha Hrl He Hb x x' W1 W2.
  exists (new_air_n p s fnh fsh vn vs x k), (new_air_s p s fnh fsh vn vs x k).
  assert (Ex : x' = substep p s fnh fsh vn vs x k) by apply year_acc_S.
  rewrite Ex, substep_eq; [|exact Href|apply year_acc_ok; exact Href]. cbn [x_an x_as x_tn x_ts].
  destruct (air_eq_n p s fnh fsh vn vs Href Ha Hrl x k Hb) as [E1 E2].
  destruct (air_eq_s p s fnh fsh vn vs Href Ha Hrl x k Hb) as [E3 E4].
  pose proof (heat_step p s fnh fsh vn vs Href Ha Hrl x k W1 W2) as H.
  rewrite E1, E3, He in H. rewrite dt_eq, c1_eq in H.
  repeat split.
  - rewrite H. ring.
  - exact E2.
  - exact E4.
Qed.

(** mean sub-step forcing of a year *)
Lemma forcing_mean p f prev (v w : list R) m : (1 <= ldtime p)%nat -> length w = length v -> (length v <> 0)%nat -> ldtime p = (m * length v)%nat ->
  sumn (fun k => dq p k f prev w (Nat.modulo k (length v))) (ldtime p) / INR (ldtime p) =
  ((INR (ldtime p) + 1) * f + (INR (ldtime p) - 1) * prev) / (2 * INR (ldtime p)) + rmean w.
Proof.
  intros Hl Hw Hv Hm. pose proof (ld_pos p Hl) as HL. unfold dq. rnum. rewrite sumn_add, ramp_sum by exact Hl.
  rewrite (f_equal (sumn (fun k => nth (k mod length v) w 0)) Hm), volc_sum by assumption. unfold rmean.
  assert (E : INR (ldtime p) = INR m * INR (length v)) by (rewrite Hm; apply mult_INR).
  assert (Hv' : INR (length v) <> 0) by (apply not_0_INR; exact Hv). rewrite Hw.
  replace (INR m * rsum w) with (INR (ldtime p) * (rsum w / INR (length v))) by (rewrite E; field; exact Hv').
  field. split; [exact Hv'|lra].
Qed.
Lemma ramp_facts p f prev (v w : list R) : (1 <= ldtime p)%nat -> (length v <> 0)%nat ->
  dq p (ldtime p - 1) f prev w (Nat.modulo (ldtime p - 1) (length v)) = f + nth (Nat.modulo (ldtime p - 1) (length v)) w 0 /\
  (forall k, dq p (S k) f prev [] 0 - dq p k f prev [] 0 = (f - prev) / INR (ldtime p)) /\
  (forall k j, dq p k f f w j = f + nth j w 0).
Proof.
  intros Hl Hv. pose proof (ld_pos p Hl) as HL. unfold dq. rnum. repeat split; intros; rewrite !ramp_eq by exact Hl.
  - replace (ldtime p - 1 + 1)%nat with (ldtime p) by lia. f_equal. field. lra.
  - cbn [nth]. rewrite !plus_INR, S_INR. cbn [INR]. field. lra.
  - f_equal. field. lra.
Qed.

Lemma default_admissible : admissible (ud_default (A := R)).
Proof. constructor; unfold ud_default; cbn [lm ldtime mixed akapa rlamdo foan foas efficacy ebbeta]; rnum; rdec; try lia; lra. Qed.
Lemma default_stable : stable (ud_default (A := R)).
Proof.
  constructor; unfold ud_default, year_s, c_solver; cbn [lm ldtime mixed akapa rlamdo foan foas efficacy ebbeta cpi beto W threstemp];
    rnum; rdec; rewrite ?INR_IZR_INZ; simpl Z.of_nat; lra.
Qed.
Lemma default_small_upwell t : 0 <= t <= 20 -> small_upwell ud_default t.
Proof.
  intro H. unfold small_upwell, upwell, ud_default. cbn [W threstemp ldtime mixed]. rnum. rdec.
  rewrite INR_IZR_INZ. simpl Z.of_nat. destruct (Req_EM_T 7 0); [lra|]. lra.
Qed.

Lemma fb_all : forall (A : Type) (N : Num A) (p : ud_pam A) ws s w,
  ud_set_feedback p (fold_left (ud_set_feedback p) ws s) w = ud_set_feedback p s w /\
  (neqb (delta_aero p) (nofZ 0) = false ->
     u_rlamda (ud_set_feedback p s w) = nadd (ndiv (nofZ 1) (lambda p)) (nmul w (delta_aero p))) /\
  (neqb (delta_aero p) (nofZ 0) = true -> ud_set_feedback p s w = s).
Proof.
  intros. split; [apply fb_history|]. unfold ud_set_feedback. split; intros ->; reflexivity.
Qed.
Lemma fb_kept : forall (A : Type) (N : Num A) (p : ud_pam A) s f g v w,
  u_rlamda (fst (ud_energy_budget p s f g v w)) = u_rlamda s.
Proof. reflexivity. Qed.
Lemma volc_once p s f g a b n : (1 <= n)%nat -> (1 <= ldtime p)%nat ->
  snd (ud_energy_budget p s f g (repeat a n) (repeat b n)) =
  snd (ud_energy_budget p (shift_prev s a b) (f + a) (g + b) (repeat 0 n) (repeat 0 n)) /\
  rmean (repeat a n) = a.
Proof.
  intros Hn Hl. split.
  - rewrite volc_budget by assumption. destruct (ud_energy_budget p (shift_prev s a b) _ _ _ _). reflexivity.
  - rewrite <- nmean_rmean. apply nmean_repeat. exact Hn.
Qed.
Lemma substep_heat_general p s fnh fsh vn vs : refreshed p s -> admissible p -> 0 <= u_rlamda s ->
  forall k, let x := year_acc p s fnh fsh vn vs k in
  let x' := year_acc p s fnh fsh vn vs (S k) in
  small_upwell p (x_t1n x) -> small_upwell p (x_t1s x) ->
  ocean p (x_tn x') (x_ts x') - ocean p (x_tn x) (x_ts x) =
    year_s / INR (ldtime p) / c_solver *
      (foan p * rlamdo p * (lagged_air_n p s fnh fsh vn vs x x' k - nth 0 (x_tn x') 0)
       + foas p * rlamdo p * (lagged_air_s p s fnh fsh vn vs x x' k - nth 0 (x_ts x') 0))
    - (efficacy p - 1) * (2 * (akapa p / 10000) * (year_s / INR (ldtime p)) / 100) *
      (foan p * (nth 0 (x_tn x') 0 - nth 1 (x_tn x') 0) + foas p * (nth 0 (x_ts x') 0 - nth 1 (x_ts x') 0)).
Proof.
  intros Href Ha Hrl k x x' W1 W2.
  assert (Ex : x' = substep p s fnh fsh vn vs x k) by apply year_acc_S.
  rewrite Ex, substep_eq; [|exact Href|apply year_acc_ok; exact Href]. cbn [x_an x_as x_tn x_ts].
  match goal with |- context [lagged_air_n p s fnh fsh vn vs x ?y k] =>
    change (lagged_air_n p s fnh fsh vn vs x y k) with (lag_air_n p s fnh fsh vn vs x k);
    change (lagged_air_s p s fnh fsh vn vs x y k) with (lag_air_s p s fnh fsh vn vs x k) end.
  rewrite (heat_step p s fnh fsh vn vs Href Ha Hrl x k W1 W2). rewrite dt_eq, c1_eq.
  unfold rakapafac, rakapa. rewrite dt_eq. rnum. rdec. pose proof (ld_pos p (ad_ld _ Ha)). unfold c_solver. field. lra.
Qed.
Lemma capacity_gap :
  ohc_unit / c_solver <> 255000000000000 / 10000000000000000000000 /\
  99879 / 100000 < (ohc_unit / c_solver) / (255000000000000 / 10000000000000000000000) < 99880 / 100000.
Proof. unfold ohc_unit, c_solver. split; lra. Qed.
Lemma run_zero_init p ins : Forall zero_in ins -> Forall all_zero (ud_run p (ud_init p) ins).
Proof. intro H. apply run_zero; [apply init_zero|exact H]. Qed.
Lemma states_nonneg_const p : admissible p -> stable p -> threstemp p = 0 -> forall ins,
  (forall n, nonneg_in (ins n) /\ 0 <= feedback p (i_w (ins n))) ->
  forall n, nonneg_out (snd (ud_year p (ud_states p ins (ud_init p) n) (ins n))).
Proof.
  intros Ha Hs Ht ins H. apply states_nonneg; try assumption. intro n. destruct (H n) as [H1 H2].
  split; [exact H1|]. split; [rewrite rl_feedback; exact H2|]. intros. split; left; exact Ht.
Qed.
Lemma ud_states_run p ins s n m : (m < n)%nat ->
  nth_error (ud_run p s (map ins (seq 0 n))) m = Some (snd (ud_year p (ud_states p ins s m) (ins m))).
Proof.
  assert (G : forall n k s0, s0 = ud_states p ins s k -> forall m, (m < n)%nat ->
    nth_error (ud_run p s0 (map ins (seq k n))) m = Some (snd (ud_year p (ud_states p ins s (k + m)) (ins (k + m)%nat)))).
  { clear. induction n as [|n IH]; intros k s0 E m Hm; [lia|]. cbn [seq map ud_run].
    destruct (ud_year p s0 (ins k)) as [s1 o] eqn:Ey. destruct m as [|m]; cbn [nth_error].
    - rewrite Nat.add_0_r, <- E, Ey. reflexivity.
    - rewrite (IH (S k) s1) by (lia || (cbn [ud_states]; rewrite <- E, Ey; reflexivity)).
      replace (S k + m)%nat with (k + S m)%nat by lia. reflexivity. }
  intro H. exact (G n 0%nat s eq_refl m H).
Qed.
Lemma substep_dq p s x k f g v w f' g' v' w' s' : length v' = length v ->
  dq p k f (u_pfn s) v (Nat.modulo k (length v)) = dq p k f' (u_pfn s') v' (Nat.modulo k (length v')) ->
  dq p k g (u_pfs s) w (Nat.modulo k (length v)) = dq p k g' (u_pfs s') w' (Nat.modulo k (length v')) ->
  u_v1 s' = u_v1 s -> u_gamn s' = u_gamn s -> u_gams s' = u_gams s -> u_fnx s' = u_fnx s -> u_fsx s' = u_fsx s ->
  substep (A := R) p s' f' g' v' w' x k = substep p s f g v w x k.
Proof. intros H1 H2 H3 H4 H5 H6 H7 H8. unfold substep. rewrite H4, H5, H6, H7, H8, <- H2, <- H3. reflexivity. Qed.
Lemma mirror_run p : beto p = 0 \/ (foan p = foas p /\ foas p <> 0) -> forall ins,
  Forall (fun i => length (i_vn i) = length (i_vs i)) ins ->
  ud_run (mirror_pam p) (ud_init (mirror_pam p)) (map mirror_in ins) = map mirror_out (ud_run p (ud_init p) ins).
Proof. intros H ins Hi. apply m_run; try assumption; try apply init_refreshed. apply m_init. Qed.
Lemma first_substep_v2 p s f g v w : (1 <= ldtime p)%nat -> refreshed p s ->
  x_v2 (year_acc p s f g v w 1) = setup_ebud2 (with_thr p 0) (u_gamn s) (u_gams s) 0 0.
Proof.
  intros Hl Href. rewrite year_acc_S, substep_eq; [|exact Href|apply year_acc_ok; exact Href]. cbn [x_v2].
  rewrite t_ebud2 by exact Hl. reflexivity.
Qed.
Lemma thr_run p t ins : ldtime p = 1%nat -> ud_run (with_thr p t) (ud_init (with_thr p t)) ins = ud_run p (ud_init p) ins.
Proof. intro H. apply t_run; try assumption; try apply init_refreshed. apply t_init. Qed.
Lemma aggregates p s f g v w : let o := snd (ud_energy_budget p s f g v w) in
  y_dtemp o = (y_nh o + y_sh o) / 2 /\ y_air o = (y_air_n o + y_air_s o) / 2 /\ y_sea o = (y_sea_n o + y_sea_s o) / 2 /\
  y_rib o = (y_ribn o + y_ribs o) / 2 /\
  y_nh o = foan p * y_sea_n o + (1 - foan p) * y_air_n o /\
  y_sh o = foas p * y_sea_s o + (1 - foas p) * y_air_s o.
Proof.
  cbn zeta. destruct (blend_acc p s f g v w (ldtime p)) as [H1 H2]. unfold ud_energy_budget.
  cbn [snd y_dtemp y_nh y_sh y_air y_air_n y_air_s y_sea y_sea_n y_sea_s y_rib y_ribn y_ribs].
  repeat split; try reflexivity; assumption.
Qed.

Lemma imbalance p s f g v w : let o := snd (ud_energy_budget p s f g v w) in
  y_anom o = extra_flux p (y_tn o) (y_ts o) (u_tn s) (u_ts s) /\
  y_ribn o = f + rmean v - u_rlamda s * y_nh o - y_anom o /\
  y_ribs o = g + rmean w - u_rlamda s * y_sh o - y_anom o.
Proof.
  cbn zeta. unfold ud_energy_budget. cbn [snd y_tn y_ts y_anom y_ribn y_ribs y_nh y_sh].
  set (x := year_acc p s f g v w (ldtime p)). clearbody x. split.
  - unfold anomalous_radiation, extra_flux, tab, WATER_HEAT_CAPACITY, WATER_DENSITY, DAY_YEAR, SEC_DAY.
    assert (E : forall h : nat -> R, nsum (tl (map h (seq 0 (lm p)))) = rsum (map h (seq 1 (lm p - 1)))).
    { intros h. rewrite nsum_rsum. destruct (lm p) as [|n]; [reflexivity|]. cbn [seq map tl]. replace (S n - 1)%nat with n by lia. reflexivity. }
    rewrite E. rnum. replace (365 * 86400) with 31536000 by ring. unfold Rdiv. f_equal. f_equal.
    f_equal. apply map_ext_in. intros i Hi. apply in_seq in Hi. unfold dz. destruct i; [lia|]. rnum. ring.
  - rnum. unfold nmean, rmean. rewrite !nsum_rsum. rnum. rewrite <- !INR_IZR_INZ. split; reflexivity.
Qed.
