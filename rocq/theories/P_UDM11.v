(** * P_UDM11: equilibrium of the upwelling-diffusion model: steady states, bounds, convergence (C89, C90) *)
From Coq Require Import Reals ZArith List Lra Lia Bool.
From Verif Require Import Num M_TwoLayer M_UDM Spec_TwoLayer Spec_UDM Spec_UDMRuns P_TwoLayer P_UDM P_UDM2 P_UDM3 P_UDM4 P_UDM5 P_UDM7 P_UDM8 P_UDM9 P_UDM10.
Import ListNotations.
Open Scope R_scope.

Section Steady.
Variable p : ud_pam R.
Hypothesis Ha : admissible p.
Hypothesis Hst : stable p.
Hypothesis Hthr : threstemp p = 0.

Let w := wcfac_of p 0.
Let rk := rakapafac p.
Let r := up_ratio p.

Lemma w_any t : wcfac_of p t = w. Proof. apply wc_const. exact Hthr. Qed.
Lemma w_ratio : w = r * rk.
Proof.
  unfold w, r, rk, up_ratio, rakapafac, rakapa. rewrite wcfac_eq by apply (ad_ld _ Ha). unfold upwell.
  destruct (Req_EM_T (threstemp p) 0) as [_|N]; [|contradiction]. rewrite dt_eq. rnum. rdec.
  pose proof (L_pos p Ha) as HL. pose proof (st_diff _ Hst) as HD. pose proof (st_W _ Hst) as HW. pose proof (ad_akapa _ Ha) as HK.
  assert (HY : 0 < year_s) by (unfold year_s; lra).
  destruct (Req_dec (akapa p) 0) as [E|E].
  - rewrite E in *. assert (W p = 0) by nra. rewrite H. unfold Rdiv. ring.
  - field. repeat split; lra.
Qed.
Lemma r_nn : 0 <= r /\ 100 * r <= 1.
Proof.
  unfold r, up_ratio. pose proof (st_diff _ Hst) as HD. pose proof (st_W _ Hst) as HW. pose proof (ad_akapa _ Ha) as HK.
  assert (HY : 0 < year_s) by (unfold year_s; lra).
  destruct (Req_dec (akapa p) 0) as [E|E].
  - rewrite E in *. assert (W p = 0) by nra. rewrite H. unfold Rdiv. rewrite Rmult_0_l. lra.
  - assert (HP : 0 < 2 * (akapa p / 10000) * year_s) by (apply Rmult_lt_0_compat; lra). split.
    + apply Rmult_le_pos; [exact HW|left; apply Rinv_0_lt_compat; exact HP].
    + apply (Rmult_le_reg_r (2 * (akapa p / 10000) * year_s)); [exact HP|]. unfold Rdiv at 1. rewrite !Rmult_assoc. rewrite Rinv_l by lra. lra.
Qed.
Lemma share_range : cpi p <= 1 -> forall i, 0 <= steady_share p i <= 1.
Proof.
  intros HC. pose proof (st_cpi _ Hst) as H0. destruct r_nn as [R0 R1].
  induction i as [|i IH]; [cbn; lra|]. destruct i as [|i].
  - cbn. fold r. nra.
  - change (steady_share p (S (S i))) with ((steady_share p (S i) + 200 * up_ratio p * cpi p) / (1 + 200 * up_ratio p)). fold r.
    assert (HP : 0 < 1 + 200 * r) by lra. split.
    + apply Rmult_le_pos; [nra|left; apply Rinv_0_lt_compat; exact HP].
    + apply (Rmult_le_reg_r (1 + 200 * r)); [exact HP|]. unfold Rdiv. rewrite Rmult_assoc, Rinv_l by lra. nra.
Qed.
Lemma profile_len t : length (steady_profile p t) = lm p. Proof. apply tab_length. Qed.
Lemma profile_nth t i : (i < lm p)%nat -> nth i (steady_profile p t) 0 = t * steady_share p i.
Proof. intros H. unfold steady_profile. apply (nth_tab (lm p) (fun i => t * steady_share p i)). exact H. Qed.
Lemma profile_out t i : (lm p <= i)%nat -> nth i (steady_profile p t) 0 = 0.
Proof. intros H. unfold steady_profile. apply nth_tab_out. lia. Qed.

(** one row of either hemisphere *)
Lemma flux1 t : rk / 100 * (t - t * steady_share p 1) = w * (1 - cpi p) * t.
Proof. rewrite w_ratio. cbn [steady_share]. fold r. field. Qed.
Lemma fluxS t i : rk / 200 * (t * steady_share p (S i) - t * steady_share p (S (S i))) - w * (t * steady_share p (S (S i))) = - (w * cpi p * t).
Proof.
  rewrite w_ratio. change (steady_share p (S (S i))) with ((steady_share p (S i) + 200 * up_ratio p * cpi p) / (1 + 200 * up_ratio p)). fold r.
  destruct r_nn as [R0 _]. field. lra.
Qed.

Lemma rows_steady t gam d : efficacy p = 1 -> length d = lm p ->
  nth 0 d 0 = t + gam * t - cpi p * w / mixed p * t ->
  (forall i, (1 <= i < lm p - 1)%nat -> nth i d 0 = t * steady_share p i) ->
  nth (lm p - 1) d 0 = t * steady_share p (lm p - 1) + w * cpi p / 100 * t ->
  forall i, (i < lm p)%nat ->
    sys_l rk w i * prevx 0 (steady_profile p t) i + sys_b p rk w (efficacy p) gam i * nth i (steady_profile p t) 0
    + sys_u p rk w (efficacy p) i * nth (i + 1) (steady_profile p t) 0 = nth i d 0.
Proof.
  intros HE LD D0 DI DL i Li. pose proof (ad_lm _ Ha) as HL. pose proof (ad_mixed _ Ha) as HM. rewrite HE.
  assert (F1 := flux1 t). unfold sys_b, sys_u. destruct i as [|i].
  - cbn [sys_l prevx Nat.add]. destruct (Nat.ltb_spec 1 (lm p)); [|lia]. rewrite !profile_nth by lia. rewrite D0. cbn [steady_share] in F1 |- *.
    set (u := 1 - 100 * up_ratio p * (1 - cpi p)) in *.
    replace (0 * 0 + (1 + 1 * (rk / (100 * mixed p)) + gam - w / mixed p) * (t * 1) + - (1 * (rk / (100 * mixed p))) * (t * u))
      with (t + gam * t - w / mixed p * t + (rk / 100 * (t - t * u)) / mixed p) by (field; lra).
    rewrite F1. field. lra.
  - cbn [prevx]. rewrite (profile_nth t i) by lia. rewrite (profile_nth t (S i)) by lia.
    destruct (Nat.ltb_spec (S i + 1) (lm p)) as [LI|LI].
    + rewrite (profile_nth t (S i + 1)) by lia. rewrite (DI (S i)) by lia. replace (S i + 1)%nat with (S (S i)) by lia.
      assert (F2 := fluxS t i). destruct i as [|i].
      * cbn [sys_l]. set (u2 := steady_share p 2) in *. set (u1 := steady_share p 1) in *. cbn [steady_share]. lra.
      * assert (F3 := fluxS t i). cbn [sys_l]. set (u3 := steady_share p (S (S (S i)))) in *. set (u2 := steady_share p (S (S i))) in *. set (u1 := steady_share p (S i)) in *. lra.
    + assert (EL : S i = (lm p - 1)%nat) by lia. rewrite <- EL in DL. rewrite DL. rewrite (profile_out t (S i + 1)) by lia.
      destruct i as [|i].
      * cbn [sys_l]. set (u1 := steady_share p 1) in *. cbn [steady_share]. lra.
      * assert (F3 := fluxS t i). cbn [sys_l]. set (u2 := steady_share p (S (S i))) in *. set (u1 := steady_share p (S i)) in *. lra.
Qed.
Lemma band_steady t gam d : efficacy p = 1 -> 0 <= gam -> length d = lm p ->
  nth 0 d 0 = t + gam * t - cpi p * w / mixed p * t ->
  (forall i, (1 <= i < lm p - 1)%nat -> nth i d 0 = t * steady_share p i) ->
  nth (lm p - 1) d 0 = t * steady_share p (lm p - 1) + w * cpi p / 100 * t ->
  band (arrA p w) (arrB p w gam) (arrC p w) d = steady_profile p t.
Proof.
  intros HE HG LD D0 DI DL. pose proof (ad_lm _ Ha) as HL. pose proof (ad_mixed _ Ha) as HM.
  pose proof (wc_range p Ha Hst Hthr 0) as HW. fold w in HW.
  assert (MR : Forall mrow (band_rows (arrA p w) (arrB p w gam) (arrC p w) d)).
  { apply sys_mrow; try assumption; try (apply rk_nonneg; [apply (ad_ld _ Ha)|apply (ad_akapa _ Ha)]); try (apply (ad_eff _ Ha)); try lra.
    - apply W_diff; assumption.
    - pose proof (st_wmix _ Hst). lra. }
  symmetry. unfold band. change (nofZ 0 : R) with 0. apply sat_thomas.
  - apply dom_pivots; [|rewrite Rabs_R0; lra]. eapply Forall_impl; [|exact MR]. intros. apply mrow_dom. assumption.
  - replace (0 - 0 * hd 0 (steady_profile p t)) with 0 by ring. rewrite rows_eq by assumption. apply sat_index. rewrite tab_length. split; [apply profile_len|].
    intros i q E. apply nth_error_tab in E. destruct E as [Li ->]. unfold sys_row. cbn [r_l r_b r_u r_d]. apply rows_steady; assumption.
Qed.

Lemma air_steady rl fo1 fo2 t : 0 <= rl -> 0 < fo1 -> 0 < fo2 ->
  air p fo1 (rl + fo1 * rlamdo p + ebbeta p) (rl * t) t fo2 (rl + fo2 * rlamdo p + ebbeta p) (rl * t) t = t.
Proof.
  intros HR H1 H2. pose proof (ad_rlamdo _ Ha) as HL. pose proof (ad_ebbeta _ Ha) as HB. unfold air. rnum.
  assert (P1 : 0 < fo1 * rlamdo p) by (apply Rmult_lt_0_compat; assumption). assert (P2 : 0 < fo2 * rlamdo p) by (apply Rmult_lt_0_compat; assumption).
  assert (HD : 0 < (rl + fo1 * rlamdo p + ebbeta p) * (rl + fo2 * rlamdo p + ebbeta p) - ebbeta p * ebbeta p) by nra.
  field. split; [|lra]. intros E. lra.
Qed.

Section Step.
Variable s : ud_state R.
Variables (fnh fsh : R) (vn vs : list R).
Hypothesis Href : refreshed p s.
Hypothesis Hrl : 0 <= u_rlamda s.
Hypothesis He : efficacy p = 1.
Lemma step_steady x im t : acc_ok p s x -> x_tn x = steady_profile p t -> x_ts x = steady_profile p t ->
  sub_dqn p s fnh vn im = u_rlamda s * t -> sub_dqs p s fsh vn vs im = u_rlamda s * t ->
  new_tn p s fnh fsh vn vs x im = steady_profile p t /\ new_ts p s fnh fsh vn vs x im = steady_profile p t /\
  new_air_n p s fnh fsh vn vs x im = t /\ new_air_s p s fnh fsh vn vs x im = t.
Proof.
  intros OK EN ES QN QS. pose proof (ad_lm _ Ha) as HL. pose proof (ad_mixed _ Ha) as HM. pose proof (ad_rlamdo _ Ha) as HLO. pose proof c1_pos as HC.
  pose proof (det_ok p s Href Ha Hrl) as HD. pose proof (gs_pos p s Href Ha Hrl) as HGS. pose proof (gn_pos p s Href Ha Hrl) as HGN.
  pose proof (ad_foan _ Ha) as HFN. pose proof (ad_foas _ Ha) as HFS.
  assert (T1 : new_tn p s fnh fsh vn vs x im = steady_profile p t).
  { unfold new_tn. rewrite !w_any. apply band_steady; try assumption.
    - apply gam_n_ok; assumption.
    - apply rhs_n_length.
    - unfold rhs_n. rewrite nth_tab by lia. cbn [Nat.eqb]. rewrite EN, ES, QN, QS. change (nofZ 0 : R) with 0. rewrite !profile_nth by lia. cbn [steady_share].
      cbn [setup_ebud1 setup_ebud2 dtrm1n dtrm2n dtrm3n dtrm4n dz]. rewrite w_any. unfold gam_fro. cbn [dz]. rnum. rewrite Rmult_1_r.
      pose proof (gn_eq p s Href) as G1. pose proof (gs_eq p s Href) as G2. pose proof (eb_eq p Ha) as EB.
      set (b := ebbeta p / rlamdo p) in *. set (q := u_rlamda s / rlamdo p) in *. assert (EQ : u_rlamda s = rlamdo p * q) by (unfold q; field; lra).
      rewrite EB, EQ, G1, G2. rewrite G1, G2 in HD. assert (HD' : (foas p + q + b) * (foan p + q + b) - 1 * (b * b) <> 0) by lra. field. repeat split; lra.
    - intros i Li. unfold rhs_n. rewrite nth_tab by lia. destruct (Nat.eqb_spec i 0); [lia|]. destruct (Nat.ltb_spec i (lm p - 1)); [|lia].
      rewrite EN, ES. change (nofZ 0 : R) with 0. rewrite !profile_nth by lia. rnum. ring.
    - unfold rhs_n. rewrite nth_tab by lia. destruct (Nat.eqb_spec (lm p - 1) 0); [lia|]. destruct (Nat.ltb_spec (lm p - 1) (lm p - 1)); [lia|].
      rewrite EN, ES. change (nofZ 0 : R) with 0. rewrite !profile_nth by lia. cbn [setup_ebud1 setup_ebud2 dtmnl1 dtmnl2 dtmnl3]. rewrite w_any.
      destruct (lm p) as [|[|l]] eqn:EL; [lia|lia|]. cbn [Nat.sub dz]. change (steady_share p 0) with 1. rnum. field. lra. }
  assert (T2 : new_ts p s fnh fsh vn vs x im = steady_profile p t).
  { unfold new_ts. rewrite !w_any. apply band_steady; try assumption.
    - apply gam_s_ok; assumption.
    - apply rhs_s_length.
    - unfold rhs_s. rewrite nth_tab by lia. cbn [Nat.eqb]. rewrite EN, ES, QN, QS. change (nofZ 0 : R) with 0. rewrite !profile_nth by lia. cbn [steady_share].
      cbn [setup_ebud1 setup_ebud2 dtrm1s dtrm2s dtrm3s dtrm4s dz]. rewrite w_any. unfold gam_fro, fnso. cbn [dz]. rnum. rewrite Rmult_1_r.
      pose proof (gn_eq p s Href) as G1. pose proof (gs_eq p s Href) as G2. pose proof (eb_eq p Ha) as EB.
      set (b := ebbeta p / rlamdo p) in *. set (q := u_rlamda s / rlamdo p) in *. assert (EQ : u_rlamda s = rlamdo p * q) by (unfold q; field; lra).
      rewrite EB, EQ, G1, G2. rewrite G1, G2 in HD. assert (HD' : (foas p + q + b) * (foan p + q + b) - 1 * (b * b) <> 0) by lra.
      assert (HD2 : (foan p + q + b) * (foas p + q + b) - b * b <> 0) by lra. field. repeat split; lra.
    - intros i Li. unfold rhs_s. rewrite nth_tab by lia. destruct (Nat.eqb_spec i 0); [lia|]. destruct (Nat.ltb_spec i (lm p - 1)); [|lia].
      rewrite EN, ES. change (nofZ 0 : R) with 0. rewrite !profile_nth by lia. rnum. ring.
    - unfold rhs_s. rewrite nth_tab by lia. destruct (Nat.eqb_spec (lm p - 1) 0); [lia|]. destruct (Nat.ltb_spec (lm p - 1) (lm p - 1)); [lia|].
      rewrite EN, ES. change (nofZ 0 : R) with 0. rewrite !profile_nth by lia. cbn [setup_ebud1 setup_ebud2 dtmsl1 dtmsl2 dtmsl3]. rewrite w_any.
      destruct (lm p) as [|[|l]] eqn:EL; [lia|lia|]. cbn [Nat.sub dz]. change (steady_share p 0) with 1. unfold fnso. rnum. field. lra. }
  split; [exact T1|]. split; [exact T2|]. unfold new_air_n, new_air_s. rewrite T1, T2, QN, QS. rewrite !profile_nth by lia. cbn [steady_share]. rewrite !Rmult_1_r.
  rewrite (rf_fnx _ _ Href), (rf_fsx _ _ Href). split; apply air_steady; assumption.
Qed.
End Step.

Lemma within_repeat v (l : list R) : Forall (within v v) l -> l = repeat v (length l).
Proof. induction 1 as [|x l [H1 H2] _ IH]; [reflexivity|]. cbn [length repeat]. rewrite <- IH. f_equal. lra. Qed.
Lemma nth_repeat_lt (v : R) n i : (i < n)%nat -> nth i (repeat v n) 0 = v.
Proof. revert i. induction n; intros [|i] H; cbn; try lia; [reflexivity|apply IHn; lia]. Qed.
Lemma dq_steady im f v vl k : Forall (within v v) vl -> (k < length vl)%nat -> dq p im f f vl k = f + v.
Proof.
  intros HV HK. unfold dq. rewrite ramp_eq by apply (ad_ld _ Ha). rewrite (within_repeat v vl HV). change (nofZ 0 : R) with 0. rewrite nth_repeat_lt by exact HK. rnum. ring.
Qed.
Lemma forced_dq rl fa fb f v i s : forced p rl fa fb v v i -> i_nh i = f -> i_sh i = f -> u_pfn s = f -> u_pfs s = f -> forall k,
  sub_dqn p s (i_nh i) (i_vn i) k = f + v /\ sub_dqs p s (i_sh i) (i_vn i) (i_vs i) k = f + v.
Proof.
  intros HF E1 E2 E3 E4 k. assert (HK : (k mod length (i_vn i) < length (i_vn i))%nat) by (apply Nat.mod_upper_bound; apply (fo_some _ _ _ _ _ _ _ HF)).
  unfold sub_dqn, sub_dqs. rewrite E1, E2, E3, E4. split; apply dq_steady; try apply HF; [exact HK|]. rewrite (fo_len _ _ _ _ _ _ _ HF). exact HK.
Qed.
Lemma forced_const rl f va vb i : forced p rl f f va vb i -> i_nh i = f /\ i_sh i = f.
Proof. intros H. destruct (fo_n _ _ _ _ _ _ _ H), (fo_s _ _ _ _ _ _ _ H). split; lra. Qed.

Section Year.
Hypothesis He : efficacy p = 1.
Variables (rl f v t : R).
Hypothesis Hpos : 0 <= rl.
Hypothesis Hbal : rl * t = f + v.

Lemma year_acc_steady s i n : refreshed p s -> u_rlamda s = rl -> u_tn s = steady_profile p t -> u_ts s = steady_profile p t ->
  u_pfn s = f -> u_pfs s = f -> forced p rl f f v v i ->
  let x := year_acc p s (i_nh i) (i_sh i) (i_vn i) (i_vs i) n in
  x_tn x = steady_profile p t /\ x_ts x = steady_profile p t /\
  x_tempn x = INR n * (t / INR (ldtime p)) /\ x_temps x = INR n * (t / INR (ldtime p)) /\ x_an x = INR n * (t / INR (ldtime p)) /\
  x_as x = INR n * (t / INR (ldtime p)) /\ x_sn x = INR n * (t / INR (ldtime p)) /\ x_ss x = INR n * (t / INR (ldtime p)).
Proof.
  intros HR HL HN HS HPN HPS HF. cbn zeta. destruct (forced_const _ _ _ _ _ HF) as [EN ES]. pose proof (ad_lm _ Ha) as HLM. pose proof (L_pos p Ha) as HLp.
  induction n as [|n IH].
  - change (INR 0) with 0. cbn [year_acc seq fold_left acc0 x_tn x_ts x_tempn x_temps x_an x_as x_sn x_ss]. rnum. rewrite !Rmult_0_l. auto 10.
  - rewrite year_acc_S. set (x := year_acc p s (i_nh i) (i_sh i) (i_vn i) (i_vs i) n) in *. destruct IH as (A1 & A2 & A3 & A4 & A5 & A6 & A7 & A8).
    assert (OK : acc_ok p s x) by (apply year_acc_ok; exact HR).
    destruct (forced_dq _ _ _ f v i s HF EN ES HPN HPS n) as [Q1 Q2].
    destruct (step_steady s (i_nh i) (i_sh i) (i_vn i) (i_vs i) HR ltac:(lra) He x n t OK A1 A2 ltac:(rewrite HL; lra) ltac:(rewrite HL; lra)) as (B1 & B2 & B3 & B4).
    rewrite substep_eq by assumption. cbn [x_tn x_ts x_tempn x_temps x_an x_as x_sn x_ss]. rewrite B1, B2, B3, B4, A3, A4, A5, A6, A7, A8, S_INR.
    rewrite !profile_nth by lia. change (steady_share p 0) with 1. repeat split; field; lra.
Qed.
Lemma year_steady s i : refreshed p s -> u_rlamda (ud_set_feedback p s (i_w i)) = rl -> u_tn s = steady_profile p t -> u_ts s = steady_profile p t ->
  u_pfn s = f -> u_pfs s = f -> forced p rl f f v v i ->
  out_steady p t (snd (ud_year p s i)) /\ u_tn (fst (ud_year p s i)) = steady_profile p t /\ u_ts (fst (ud_year p s i)) = steady_profile p t /\
  u_pfn (fst (ud_year p s i)) = f /\ u_pfs (fst (ud_year p s i)) = f.
Proof.
  intros HR HL HN HS HPN HPS HF. destruct (forced_const _ _ _ _ _ HF) as [EN ES]. pose proof (L_pos p Ha) as HLp.
  set (s1 := ud_set_feedback p s (i_w i)) in *. assert (R1 : refreshed p s1) by (apply set_feedback_refreshed; exact HR).
  assert (K : u_tn s1 = u_tn s /\ u_ts s1 = u_ts s /\ u_pfn s1 = u_pfn s /\ u_pfs s1 = u_pfs s) by (unfold s1, ud_set_feedback; destruct (neqb _ _); cbn; auto).
  destruct K as (K1 & K2 & K3 & K4). rewrite <- K1 in HN. rewrite <- K2 in HS. rewrite <- K3 in HPN. rewrite <- K4 in HPS.
  pose proof (year_acc_steady s1 i (ldtime p) R1 HL HN HS HPN HPS HF) as X. cbn zeta in X.
  pose proof (imbalance p s1 (i_nh i) (i_sh i) (i_vn i) (i_vs i)) as I. cbn zeta in I.
  unfold ud_year. fold s1. unfold ud_energy_budget in *. cbn [fst snd] in *.
  cbn [y_tn y_ts y_anom y_ribn y_ribs y_nh y_sh u_tn u_ts u_pfn u_pfs] in *.
  set (x := year_acc p s1 (i_nh i) (i_sh i) (i_vn i) (i_vs i) (ldtime p)) in *.
  destruct X as (A1 & A2 & A3 & A4 & A5 & A6 & A7 & A8). destruct I as (I1 & I2 & I3).
  assert (ET : INR (ldtime p) * (t / INR (ldtime p)) = t) by (field; lra). rewrite ET in *.
  split; [|auto].
  assert (EA : extra_flux p (x_tn x) (x_ts x) (u_tn s1) (u_ts s1) = 0) by (unfold extra_flux; rewrite He; ring).
  assert (MV : rmean (i_vn i) = v).
  { rewrite (within_repeat v (i_vn i)) by apply HF. rewrite <- nmean_rmean. apply nmean_repeat. pose proof (fo_some _ _ _ _ _ _ _ HF). lia. }
  assert (MS : rmean (i_vs i) = v).
  { rewrite (within_repeat v (i_vs i)) by apply HF. rewrite <- nmean_rmean. apply nmean_repeat. rewrite (fo_len _ _ _ _ _ _ _ HF). pose proof (fo_some _ _ _ _ _ _ _ HF). lia. }
  rewrite EA in I1. clear I2 I3.
  unfold out_steady. cbn [y_tn y_ts y_anom y_ribn y_ribs y_rib y_dtemp y_nh y_sh y_air y_air_n y_air_s y_sea y_sea_n y_sea_s].
  split; [exact A1|]. split; [exact A2|]. rewrite I1, !nmean_rmean, MV, MS, HL, EN, ES, A3, A4, A5, A6, A7, A8. rnum. split; repeat constructor; lra.
Qed.
End Year.

Lemma steady_refreshed t f : refreshed p (steady_state p t f).
Proof.
  destruct (init_refreshed p) as [Q1 Q2 Q3 Q4 Q5 Q6 Q7 Q8].
  constructor; cbn [steady_state u_fnx u_fsx u_gamn u_gams u_rlamda u_v1 u_v2 u_tn u_ts]; try assumption; apply profile_len.
Qed.
Lemma from_refreshed ins s n : refreshed p s -> refreshed p (ud_states p ins s n).
Proof. intros H. induction n; [exact H|]. cbn [ud_states]. apply year_refreshed. assumption. Qed.
Lemma from_rl ins s n : delta_aero p = 0 -> u_rlamda (ud_states p ins s n) = u_rlamda s.
Proof.
  intro H. induction n as [|n IH]; [reflexivity|]. cbn [ud_states]. unfold ud_year, ud_energy_budget. cbn [fst u_rlamda].
  rewrite set_feedback_rlamda. destruct (Req_EM_T (delta_aero p) 0); [exact IH|contradiction].
Qed.
Lemma from_feedback ins s n w0 : u_rlamda s = 1 / lambda p -> u_rlamda (ud_set_feedback p (ud_states p ins s n) w0) = feedback p w0.
Proof.
  intros H. rewrite set_feedback_rlamda. unfold feedback. destruct (Req_EM_T (delta_aero p) 0) as [E|E]; [|reflexivity]. rewrite from_rl by exact E. exact H.
Qed.
Lemma steady_rl t f : u_rlamda (steady_state p t f) = 1 / lambda p. Proof. reflexivity. Qed.

Lemma equilibrium rl f v t ins : efficacy p = 1 -> 0 <= rl -> rl * t = f + v -> (forall n, forced p rl f f v v (ins n)) ->
  forall n, out_steady p t (snd (ud_year p (ud_states p ins (steady_state p t f) n) (ins n))).
Proof.
  intros He Hp Hb HF.
  assert (G : forall n, let s := ud_states p ins (steady_state p t f) n in
    u_tn s = steady_profile p t /\ u_ts s = steady_profile p t /\ u_pfn s = f /\ u_pfs s = f).
  { induction n as [|n IH]; cbn zeta in *; [cbn [ud_states steady_state u_tn u_ts u_pfn u_pfs]; auto|]. destruct IH as (A1 & A2 & A3 & A4).
    cbn [ud_states]. apply (year_steady He rl f v t Hp Hb); try assumption; [apply from_refreshed, steady_refreshed| |apply HF].
    rewrite from_feedback by apply steady_rl. apply (fo_fb _ _ _ _ _ _ _ (HF n)). }
  intros n. destruct (G n) as (A1 & A2 & A3 & A4). apply (year_steady He rl f v t Hp Hb); try assumption; [apply from_refreshed, steady_refreshed| |apply HF].
  rewrite from_feedback by apply steady_rl. apply (fo_fb _ _ _ _ _ _ _ (HF n)).
Qed.

Lemma Forall2_repeat_l (a b : R) (l : list R) : Forall (within a b) l -> Forall2 Rle l (repeat b (length l)) /\ Forall2 Rle (repeat a (length l)) l.
Proof. induction 1 as [|x l [H1 H2] _ [IH1 IH2]]; cbn [length repeat]; split; constructor; assumption. Qed.
Definition flat_in (f v : R) (i : tl_in R) : tl_in R :=
  {| i_w := i_w i; i_nh := f; i_sh := f; i_vn := repeat v (length (i_vn i)); i_vs := repeat v (length (i_vs i)) |}.
Lemma repeat_within (v : R) n : Forall (within v v) (repeat v n).
Proof. induction n; constructor; [split; lra|assumption]. Qed.
Lemma flat_forced rl fa fb va vb f v i : forced p rl fa fb va vb i -> forced p rl f f v v (flat_in f v i).
Proof.
  intros [H1 H2 H3 H4 H5 H6 H7]. constructor; cbn [flat_in i_w i_nh i_sh i_vn i_vs]; try apply repeat_within; rewrite ?repeat_length; try assumption; split; lra.
Qed.
Lemma flat_above rl fa fb va vb i : forced p rl fa fb va vb i -> in_le i (flat_in fb vb i) /\ in_le (flat_in fa va i) i.
Proof.
  intros [H1 [H2 H2'] [H3 H3'] H4 H5 H6 H7]. unfold in_le. cbn [flat_in i_w i_nh i_sh i_vn i_vs].
  destruct (Forall2_repeat_l _ _ _ H4), (Forall2_repeat_l _ _ _ H5). repeat split; assumption.
Qed.
Lemma profile_bounds t : cpi p <= 1 -> (0 <= t -> Forall (within 0 t) (steady_profile p t)) /\ (t <= 0 -> Forall (within t 0) (steady_profile p t)).
Proof.
  intros HC. split; intros Ht; apply Forall_forall; intros x Hx; unfold steady_profile, tab in Hx; apply in_map_iff in Hx; destruct Hx as (i & <- & _);
    pose proof (share_range HC i); split; nra.
Qed.
Lemma Forall2_upper (b : R) l m : Forall2 Rle l m -> Forall (fun x => x <= b) m -> Forall (fun x => x <= b) l.
Proof. induction 1; intros F; [constructor|]. inversion F; subst. constructor; [lra|auto]. Qed.
Lemma Forall2_lower (a : R) l m : Forall2 Rle l m -> Forall (fun x => a <= x) l -> Forall (fun x => a <= x) m.
Proof. induction 1; intros F; [constructor|]. inversion F; subst. constructor; [lra|auto]. Qed.

Lemma states_le ins ins' s s' : refreshed p s -> refreshed p s' -> u_rlamda s = 1 / lambda p -> state_le s s' ->
  (forall n, in_le (ins n) (ins' n) /\ 0 <= feedback p (i_w (ins n))) ->
  forall n, state_le (ud_states p ins s n) (ud_states p ins' s' n) /\
            out_le (snd (ud_year p (ud_states p ins s n) (ins n))) (snd (ud_year p (ud_states p ins' s' n) (ins' n))).
Proof.
  intros HR HR' HL HS H.
  assert (G : forall n, state_le (ud_states p ins s n) (ud_states p ins' s' n)).
  { induction n as [|n IH]; [exact HS|]. cbn [ud_states]. destruct (H n) as (H1 & H2).
    apply (year_mono p Ha Hst Hthr); try assumption; try (apply from_refreshed; assumption). rewrite from_feedback by exact HL. exact H2. }
  intro n. split; [apply G|]. destruct (H n) as (H1 & H2). apply (year_mono p Ha Hst Hthr); try assumption; try (apply from_refreshed; assumption); [apply G|].
  rewrite from_feedback by exact HL. exact H2.
Qed.
Lemma init_below t f : cpi p <= 1 -> 0 <= t -> 0 <= f -> state_le (ud_init p) (steady_state p t f).
Proof.
  intros HC Ht Hf. assert (L : Forall2 Rle (u_tn (ud_init p)) (steady_profile p t)).
  { apply nth_Forall2; [rewrite profile_len; apply (rf_tn _ _ (init_refreshed p))|]. rewrite (rf_tn _ _ (init_refreshed p)). intros i Li. rewrite profile_nth by exact Li.
    unfold ud_init. cbn [u_tn]. rewrite nth_tab by exact Li. pose proof (share_range HC i). rnum. nra. }
  unfold state_le. cbn [steady_state u_rlamda u_tn u_ts u_pfn u_pfs]. repeat split; try exact L; cbn [ud_init u_pfn u_pfs]; rnum; lra.
Qed.
Lemma init_above t f : cpi p <= 1 -> t <= 0 -> f <= 0 -> state_le (steady_state p t f) (ud_init p).
Proof.
  intros HC Ht Hf. assert (L : Forall2 Rle (steady_profile p t) (u_tn (ud_init p))).
  { apply nth_Forall2; [rewrite profile_len; symmetry; apply (rf_tn _ _ (init_refreshed p))|]. rewrite profile_len. intros i Li. rewrite profile_nth by exact Li.
    unfold ud_init. cbn [u_tn]. rewrite nth_tab by exact Li. pose proof (share_range HC i). rnum. nra. }
  unfold state_le. cbn [steady_state u_rlamda u_tn u_ts u_pfn u_pfs]. repeat split; try exact L; cbn [ud_init u_pfn u_pfs]; rnum; lra.
Qed.

Lemma upper_bound rl fa fb va vb ins : efficacy p = 1 -> cpi p <= 1 -> 0 < rl -> 0 <= fb -> 0 <= vb -> (forall n, forced p rl fa fb va vb (ins n)) ->
  forall n, let o := snd (ud_year p (ud_states p ins (ud_init p) n) (ins n)) in let b := (fb + vb) / rl in
    Forall (fun x => x <= b) (y_tn o) /\ Forall (fun x => x <= b) (y_ts o) /\
    Forall (fun x => x <= b) [y_dtemp o; y_nh o; y_sh o; y_air o; y_air_n o; y_air_s o; y_sea o; y_sea_n o; y_sea_s o].
Proof.
  intros He HC Hp Hfb Hvb HF n. cbn zeta. set (b := (fb + vb) / rl). assert (Hb : rl * b = fb + vb) by (unfold b; field; lra).
  assert (Hb0 : 0 <= b) by (apply Rmult_le_pos; [lra|left; apply Rinv_0_lt_compat; exact Hp]).
  set (ins' := fun m => flat_in fb vb (ins m)).
  destruct (states_le ins ins' (ud_init p) (steady_state p b fb) (init_refreshed p) (steady_refreshed b fb) eq_refl (init_below b fb HC Hb0 Hfb)) with (n := n) as [_ L].
  { intros m. split; [apply (flat_above _ _ _ _ _ _ (HF m))|]. rewrite (fo_fb _ _ _ _ _ _ _ (HF m)). lra. }
  destruct (equilibrium rl fb vb b ins' He ltac:(lra) Hb (fun m => flat_forced _ _ _ _ _ fb vb _ (HF m)) n) as (E1 & E2 & E3 & _).
  set (o := snd (ud_year p (ud_states p ins (ud_init p) n) (ins n))) in *. set (o' := snd (ud_year p (ud_states p ins' _ n) (ins' n))) in *.
  destruct L as (L1 & L2 & L3 & L4 & L5 & L6 & L7 & L8 & L9 & L10 & L11 & _). unfold profile_le in *. rewrite E1 in L1. rewrite E2 in L2.
  assert (PB : Forall (fun x => x <= b) (steady_profile p b)).
  { eapply Forall_impl; [|apply (proj1 (profile_bounds b HC) Hb0)]. intros x [_ Hx]. exact Hx. }
  do 9 (let Q := fresh "Q" in pose proof (Forall_inv E3) as Q; cbv beta in Q; apply Forall_inv_tail in E3).
  split; [exact (Forall2_upper _ _ _ L1 PB)|]. split; [exact (Forall2_upper _ _ _ L2 PB)|]. repeat (apply Forall_cons; [lra|]). apply Forall_nil.
Qed.
Lemma lower_bound rl fa fb va vb ins : efficacy p = 1 -> cpi p <= 1 -> 0 < rl -> fa <= 0 -> va <= 0 -> (forall n, forced p rl fa fb va vb (ins n)) ->
  forall n, let o := snd (ud_year p (ud_states p ins (ud_init p) n) (ins n)) in let a := (fa + va) / rl in
    Forall (fun x => a <= x) (y_tn o) /\ Forall (fun x => a <= x) (y_ts o) /\
    Forall (fun x => a <= x) [y_dtemp o; y_nh o; y_sh o; y_air o; y_air_n o; y_air_s o; y_sea o; y_sea_n o; y_sea_s o].
Proof.
  intros He HC Hp Hfa Hva HF n. cbn zeta. set (a := (fa + va) / rl). assert (Hb : rl * a = fa + va) by (unfold a; field; lra).
  assert (Ha0 : a <= 0). { apply (Rmult_le_reg_l rl); [exact Hp|]. lra. }
  set (ins' := fun m => flat_in fa va (ins m)).
  destruct (states_le ins' ins (steady_state p a fa) (ud_init p) (steady_refreshed a fa) (init_refreshed p) eq_refl (init_above a fa HC Ha0 Hfa)) with (n := n) as [_ L].
  { intros m. split; [apply (flat_above _ _ _ _ _ _ (HF m))|]. cbn [ins' flat_in i_w]. rewrite (fo_fb _ _ _ _ _ _ _ (HF m)). lra. }
  destruct (equilibrium rl fa va a ins' He ltac:(lra) Hb (fun m => flat_forced _ _ _ _ _ fa va _ (HF m)) n) as (E1 & E2 & E3 & _).
  set (o := snd (ud_year p (ud_states p ins (ud_init p) n) (ins n))) in *. set (o' := snd (ud_year p (ud_states p ins' _ n) (ins' n))) in *.
  destruct L as (L1 & L2 & L3 & L4 & L5 & L6 & L7 & L8 & L9 & L10 & L11 & _). unfold profile_le in *. rewrite E1 in L1. rewrite E2 in L2.
  assert (PB : Forall (fun x => a <= x) (steady_profile p a)).
  { eapply Forall_impl; [|apply (proj2 (profile_bounds a HC) Ha0)]. intros x [Hx _]. exact Hx. }
  do 9 (let Q := fresh "Q" in pose proof (Forall_inv E3) as Q; cbv beta in Q; apply Forall_inv_tail in E3).
  split; [exact (Forall2_lower _ _ _ L1 PB)|]. split; [exact (Forall2_lower _ _ _ L2 PB)|]. repeat (apply Forall_cons; [lra|]). apply Forall_nil.
Qed.
Lemma Forall_within a b (l : list R) : Forall (fun x => a <= x) l -> Forall (fun x => x <= b) l -> Forall (within a b) l.
Proof. intros H1 H2. apply Forall_forall. intros x Hx. split; [exact (proj1 (Forall_forall _ _) H1 x Hx)|exact (proj1 (Forall_forall _ _) H2 x Hx)]. Qed.
Lemma bounded rl fa fb va vb ins : efficacy p = 1 -> cpi p <= 1 -> 0 < rl -> fa <= 0 <= fb -> va <= 0 <= vb -> (forall n, forced p rl fa fb va vb (ins n)) ->
  forall n, out_within ((fa + va) / rl) ((fb + vb) / rl) (snd (ud_year p (ud_states p ins (ud_init p) n) (ins n))).
Proof.
  intros He HC Hp [F1 F2] [V1 V2] HF n.
  destruct (upper_bound rl fa fb va vb ins He HC Hp F2 V2 HF n) as (U1 & U2 & U3). destruct (lower_bound rl fa fb va vb ins He HC Hp F1 V1 HF n) as (D1 & D2 & D3).
  unfold out_within. split; [|split]; apply Forall_within; assumption.
Qed.

(** ** approach to equilibrium under constant forcing *)
Lemma sumn_const (c : R) n : sumn (fun _ => c) n = INR n * c.
Proof. induction n as [|n IH]; [cbn; ring|]. cbn [sumn]. rewrite IH, S_INR. ring. Qed.
Lemma c1_solver : c1 (A:=R) = c_solver.
Proof. unfold c1, c_solver, SEC_DAY. rnum. lra. Qed.

Section Approach.
Hypothesis He : efficacy p = 1.
Hypothesis Hc : cpi p <= 1.
Hypothesis Hd : delta_aero p = 0.
Hypothesis Hb : ebbeta p = 0.
Hypothesis Hw : small_upwell p 0.
Hypothesis Hlam : 0 < lambda p.
Variables (f v : R) (i : tl_in R).
Hypothesis Hf : 0 <= f.
Hypothesis Hv : 0 <= v.
Let rl := 1 / lambda p.
Hypothesis HF : forced p rl f f v v i.
Let t := lambda p * (f + v).
Let st n := ud_states p (fun _ => i) (ud_init p) n.
Let o n := snd (ud_year p (st n) i).

Lemma rl_pos : 0 < rl. Proof. unfold rl. apply Rdiv_lt_0_compat; lra. Qed.
Lemma t_bal : rl * t = f + v. Proof. unfold rl, t. field. lra. Qed.
Lemma t_div : (f + v) / rl = t. Proof. unfold rl, t. field. lra. Qed.
Lemma t_nn : 0 <= t. Proof. unfold t. apply Rmult_le_pos; lra. Qed.
Lemma fb_id s w0 : ud_set_feedback p s w0 = s.
Proof. unfold ud_set_feedback. rnum. destruct (Req_EM_T (delta_aero p) 0); [reflexivity|contradiction]. Qed.
Lemma st_rl n : u_rlamda (st n) = rl. Proof. apply rl_states. exact Hd. Qed.
Lemma st_ref n : refreshed p (st n). Proof. apply states_refreshed. Qed.
Lemma st_next n : u_tn (st (S n)) = y_tn (o n) /\ u_ts (st (S n)) = y_ts (o n) /\ u_pfn (st (S n)) = f /\ u_pfs (st (S n)) = f.
Proof.
  destruct (forced_const _ _ _ _ _ HF) as [EN ES]. unfold st, o. cbn [ud_states]. unfold ud_year, ud_energy_budget. cbn [fst snd u_tn u_ts u_pfn u_pfs y_tn y_ts]. auto.
Qed.
Lemma forced_weak : forced p rl 0 f 0 v i.
Proof.
  destruct HF as [H1 [H2 H2'] [H3 H3'] H4 H5 H6 H7]. constructor; try assumption; try (split; lra);
    (eapply Forall_impl; [|eassumption]; intros x [A B]; split; lra).
Qed.
Lemma in_le_refl : in_le i i.
Proof. unfold in_le. repeat split; try lra; apply Forall2_refl. Qed.
Lemma fb_ok w0 : 0 <= u_rlamda (ud_set_feedback p (st w0) (i_w i)).
Proof. rewrite fb_id, st_rl. left. apply rl_pos. Qed.
Lemma nn_le n (l : list R) : length l = n -> Forall (fun x => 0 <= x) l -> Forall2 Rle (tab n (fun _ => 0)) l.
Proof.
  intros HL H. apply nth_Forall2; rewrite tab_length; [symmetry; exact HL|]. intros k Hk. rewrite nth_tab by exact Hk. apply Forall_nth0. exact H.
Qed.
Lemma st_grow n : state_le (st n) (st (S n)).
Proof.
  induction n as [|n IH].
  - destruct (st_next 0) as (A1 & A2 & A3 & A4).
    destruct (lower_bound rl 0 f 0 v (fun _ => i) He Hc rl_pos (Rle_refl 0) (Rle_refl 0) (fun _ => forced_weak) 0) as (B1 & B2 & _).
    replace ((0 + 0) / rl) with 0 in B1, B2 by (pose proof rl_pos; field; lra).
    unfold state_le. rewrite A1, A2, A3, A4, !st_rl. pose proof (st_ref 1) as R1.
    pose proof (rf_tn _ _ R1) as LN. pose proof (rf_ts _ _ R1) as LS. rewrite A1 in LN. rewrite A2 in LS.
    repeat split; [apply (nn_le (lm p)); assumption|apply (nn_le (lm p)); assumption|exact Hf|exact Hf].
  - assert (X : state_le (fst (ud_year p (st n) i)) (fst (ud_year p (st (S n)) i))).
    { apply (year_mono p Ha Hst Hthr); [apply st_ref|apply st_ref|exact IH|apply in_le_refl|apply fb_ok]. }
    exact X.
Qed.
Lemma air_grow n : y_air (o n) <= y_air (o (S n)).
Proof.
  assert (X : out_le (o n) (o (S n))).
  { unfold o. apply (year_mono p Ha Hst Hthr); [apply st_ref|apply st_ref|apply st_grow|apply in_le_refl|apply fb_ok]. }
  apply X.
Qed.
Lemma below_eq n : Forall2 Rle (y_tn (o n)) (steady_profile p t) /\ Forall2 Rle (y_ts (o n)) (steady_profile p t) /\ y_air (o n) <= t.
Proof.
  destruct (states_le (fun _ => i) (fun _ => i) (ud_init p) (steady_state p t f) (init_refreshed p) (steady_refreshed t f) eq_refl (init_below t f Hc t_nn Hf)) with (n := n) as [_ L].
  { intros m. split; [apply in_le_refl|]. rewrite (fo_fb _ _ _ _ _ _ _ HF). left. apply rl_pos. }
  destruct (equilibrium rl f v t (fun _ => i) He (Rlt_le _ _ rl_pos) t_bal (fun _ => HF) n) as (E1 & E2 & E3 & _).
  cbv beta in L, E1, E2, E3. unfold o, st. set (o' := snd (ud_year p (ud_states p (fun _ => i) (steady_state p t f) n) i)) in *.
  destruct L as (L1 & L2 & L3 & L4 & L5 & L6 & L7 & L8 & _). unfold profile_le in *. rewrite E1 in L1. rewrite E2 in L2.
  split; [exact L1|]. split; [exact L2|]. do 3 apply Forall_inv_tail in E3. pose proof (Forall_inv E3) as Q. cbv beta in Q. rewrite Q. exact L8.
Qed.
Let oc n := ocean p (u_tn (st n)) (u_ts (st n)).
Lemma w_small s k : small_upwell p (x_t1n (year_acc p s (i_nh i) (i_sh i) (i_vn i) (i_vs i) k)) /\ small_upwell p (x_t1s (year_acc p s (i_nh i) (i_sh i) (i_vn i) (i_vs i) k)).
Proof.
  assert (X : forall u, small_upwell p u).
  { intros u. unfold small_upwell, upwell in *. destruct (Req_EM_T (threstemp p) 0); [exact Hw|contradiction]. }
  split; apply X.
Qed.
Lemma heat_gain n : oc (S (S n)) - oc (S n) = 2 * year_s / c_solver * (f + v - rl * y_air (o (S n))).
Proof.
  destruct (st_next n) as (_ & _ & P1 & P2). destruct (st_next (S n)) as (A1 & A2 & _ & _). unfold oc. rewrite A1, A2.
  pose proof (heat_year p (st (S n)) (i_nh i) (i_sh i) (i_vn i) (i_vs i) (st_ref (S n)) Ha ltac:(rewrite st_rl; left; apply rl_pos) (ldtime p) He Hb (fun k _ => w_small _ k)) as H.
  destruct (forced_const _ _ _ _ _ HF) as [EN ES].
  rewrite (sumn_ext _ (fun _ => 2 * (f + v))) in H.
  2:{ intros k Hk. destruct (forced_dq _ _ _ f v i (st (S n)) HF EN ES P1 P2 k) as [Q1 Q2]. rewrite Q1, Q2. ring. }
  rewrite sumn_const, st_rl, dt_eq, c1_solver in H. unfold o, ud_year. rewrite fb_id. unfold ud_energy_budget. cbn [snd y_tn y_ts y_air]. rewrite H. rnum.
  pose proof (L_pos p Ha). unfold c_solver. field. lra.
Qed.
Lemma heat_sum n : INR (S n) * (2 * year_s / c_solver * (f + v - rl * y_air (o (S n)))) <= oc (S (S n)) - oc 1.
Proof.
  assert (K : 0 < 2 * year_s / c_solver) by (unfold year_s, c_solver; lra). pose proof rl_pos as HR.
  induction n as [|n IH].
  - rewrite heat_gain. cbn [INR]. lra.
  - pose proof (heat_gain (S n)) as G. pose proof (air_grow (S n)) as A. rewrite (S_INR (S n)). pose proof (pos_INR (S n)) as P.
    set (K0 := 2 * year_s / c_solver) in *. set (a1 := y_air (o (S n))) in *. set (a2 := y_air (o (S (S n)))) in *.
    assert (B : K0 * (f + v - rl * a2) <= K0 * (f + v - rl * a1)) by (apply Rmult_le_compat_l; [lra|]; nra).
    assert (B2 : INR (S n) * (K0 * (f + v - rl * a2)) <= INR (S n) * (K0 * (f + v - rl * a1))) by (apply Rmult_le_compat_l; assumption). lra.
Qed.
Lemma oc_bounds n : 0 <= oc (S n) <= ocean p (steady_profile p t) (steady_profile p t).
Proof.
  destruct (st_next n) as (A1 & A2 & _). destruct (below_eq n) as (B1 & B2 & _). pose proof (ad_foan _ Ha). pose proof (ad_foas _ Ha).
  destruct (lower_bound rl 0 f 0 v (fun _ => i) He Hc rl_pos (Rle_refl 0) (Rle_refl 0) (fun _ => forced_weak) n) as (D1 & D2 & _).
  replace ((0 + 0) / rl) with 0 in D1, D2 by (pose proof rl_pos; field; lra).
  unfold oc, ocean. rewrite A1, A2. split.
  - assert (X : forall l, Forall (fun x => 0 <= x) l -> 0 <= column p l).
    { intros l HL. apply sumn_nonneg. intros k _. apply Rmult_le_pos; [left; apply (thick_pos p Ha)|apply Forall_nth0; exact HL]. }
    specialize (X (y_tn (o n)) D1) as X1. specialize (X (y_ts (o n)) D2) as X2. apply Rplus_le_le_0_compat; apply Rmult_le_pos; lra.
  - apply Rplus_le_compat; apply Rmult_le_compat_l; try lra; apply column_mono; assumption.
Qed.
Lemma air_rate n : 0 <= t - y_air (o (S n)) <= ocean p (steady_profile p t) (steady_profile p t) * c_solver * lambda p / (2 * year_s * INR (S n)).
Proof.
  destruct (below_eq (S n)) as (_ & _ & B). split; [lra|]. pose proof (heat_sum n) as H. pose proof (oc_bounds (S n)) as O1. pose proof (oc_bounds 0) as O2.
  assert (P : 0 < INR (S n)) by (apply lt_0_INR; lia). set (N := INR (S n)) in *. set (E := ocean p (steady_profile p t) (steady_profile p t)) in *. set (a := y_air (o (S n))) in *.
  assert (H2 : N * (2 * year_s / c_solver * (f + v - rl * a)) <= E) by lra.
  assert (EQ : f + v - rl * a = (t - a) / lambda p) by (rewrite <- t_bal; unfold rl; field; lra). rewrite EQ in H2.
  assert (HY : 0 < year_s) by (unfold year_s; lra). assert (HS : 0 < c_solver) by (unfold c_solver; lra).
  apply (Rmult_le_reg_r (2 * year_s * N)); [apply Rmult_lt_0_compat; lra|].
  replace (E * c_solver * lambda p / (2 * year_s * N) * (2 * year_s * N)) with (E * (c_solver * lambda p)) by (field; lra).
  replace ((t - a) * (2 * year_s * N)) with (N * (2 * year_s / c_solver * ((t - a) / lambda p)) * (c_solver * lambda p)) by (field; lra).
  apply Rmult_le_compat_r; [|exact H2]. apply Rmult_le_pos; lra.
Qed.
Lemma temp_air n : t - y_dtemp (o (S n)) = (t - y_air (o (S n))) * (1 + 1 / (lambda p * rlamdo p)).
Proof.
  destruct (st_next n) as (_ & _ & P1 & P2). destruct (forced_const _ _ _ _ _ HF) as [EN ES]. pose proof (ad_rlamdo _ Ha) as HL. pose proof (L_pos p Ha) as HLp.
  assert (HRl : 0 <= u_rlamda (st (S n))) by (rewrite st_rl; left; apply rl_pos).
  assert (G : forall k, let x := year_acc p (st (S n)) (i_nh i) (i_sh i) (i_vn i) (i_vs i) k in
    x_tempn x = x_an x - (INR k / INR (ldtime p) * (f + v) - rl * x_an x) / rlamdo p /\
    x_temps x = x_as x - (INR k / INR (ldtime p) * (f + v) - rl * x_as x) / rlamdo p).
  { induction k as [|k IH]; cbn zeta in *.
    - change (INR 0) with 0. cbn [year_acc seq fold_left acc0 x_tempn x_temps x_an x_as]. rnum. split; field; lra.
    - rewrite year_acc_S. set (x := year_acc p (st (S n)) (i_nh i) (i_sh i) (i_vn i) (i_vs i) k) in *. destruct IH as [I1 I2].
      assert (OK : acc_ok p (st (S n)) x) by (apply year_acc_ok; apply st_ref). rewrite substep_eq by (try exact OK; apply st_ref). cbn [x_tempn x_temps x_an x_as].
      destruct (forced_dq _ _ _ f v i (st (S n)) HF EN ES P1 P2 k) as [Q1 Q2].
      destruct (air_eq_n p (st (S n)) (i_nh i) (i_sh i) (i_vn i) (i_vs i) (st_ref (S n)) Ha HRl x k Hb) as [_ Y1].
      destruct (air_eq_s p (st (S n)) (i_nh i) (i_sh i) (i_vn i) (i_vs i) (st_ref (S n)) Ha HRl x k Hb) as [_ Y2].
      rewrite Q1, st_rl in Y1. rewrite Q2, st_rl in Y2. rewrite I1, I2, S_INR.
      set (an := new_air_n _ _ _ _ _ _ x k) in *. set (as_ := new_air_s _ _ _ _ _ _ x k) in *.
      set (tn := nth 0 (new_tn _ _ _ _ _ _ x k) 0) in *. set (ts := nth 0 (new_ts _ _ _ _ _ _ x k) 0) in *.
      assert (Z1 : foan p * tn + (1 - foan p) * an = an - (f + v - rl * an) / rlamdo p) by (rewrite <- Y1; field; lra).
      assert (Z2 : foas p * ts + (1 - foas p) * as_ = as_ - (f + v - rl * as_) / rlamdo p) by (rewrite <- Y2; field; lra).
      rewrite Z1, Z2. split; field; split; lra. }
  specialize (G (ldtime p)). cbn zeta in G. unfold o, ud_year. rewrite fb_id. unfold ud_energy_budget. cbn [snd y_dtemp y_air].
  set (x := year_acc _ _ _ _ _ _ _) in *. destruct G as [G1 G2]. rewrite G1, G2. rnum. rewrite <- t_bal. unfold rl. field. repeat split; lra.
Qed.
Let rate := ocean p (steady_profile p t) (steady_profile p t) * c_solver * lambda p / (2 * year_s) * (1 + 1 / (lambda p * rlamdo p)).
Lemma temp_rate n : 0 <= t - y_dtemp (o (S n)) <= rate / INR (S n).
Proof.
  pose proof (air_rate n) as [A B]. rewrite temp_air. assert (P : 0 < INR (S n)) by (apply lt_0_INR; lia). pose proof (ad_rlamdo _ Ha) as HL.
  assert (K : 0 < 1 + 1 / (lambda p * rlamdo p)) by (assert (0 < 1 / (lambda p * rlamdo p)) by (apply Rdiv_lt_0_compat; [lra|apply Rmult_lt_0_compat; assumption]); lra).
  assert (HY : 0 < year_s) by (unfold year_s; lra). split; [apply Rmult_le_pos; lra|].
  replace (rate / INR (S n)) with (ocean p (steady_profile p t) (steady_profile p t) * c_solver * lambda p / (2 * year_s * INR (S n)) * (1 + 1 / (lambda p * rlamdo p))).
  - apply Rmult_le_compat_r; lra.
  - unfold rate. field. repeat split; lra.
Qed.
Lemma temp_cv : Un_cv (fun n => y_dtemp (o n)) t.
Proof.
  intros eps Heps. set (k := Z.to_nat (up (Rabs rate / eps))). exists (S k). intros n Hn. destruct n as [|n]; [lia|].
  destruct (temp_rate n) as [A B]. unfold R_dist. rewrite Rabs_minus_sym, Rabs_right by lra.
  assert (P : 0 < INR (S n)) by (apply lt_0_INR; lia). destruct (archimed (Rabs rate / eps)) as [U _].
  assert (R0 : 0 <= Rabs rate / eps) by (apply Rmult_le_pos; [apply Rabs_pos|left; apply Rinv_0_lt_compat; exact Heps]).
  assert (L : Rabs rate / eps < INR (S n)).
  { apply Rlt_le_trans with (INR k); [|apply le_INR; lia]. unfold k. rewrite INR_IZR_INZ, Z2Nat.id; [exact U|]. apply le_IZR. lra. }
  apply Rle_lt_trans with (rate / INR (S n)); [exact B|]. apply (Rmult_lt_reg_r (INR (S n))); [exact P|]. unfold Rdiv. rewrite Rmult_assoc, Rinv_l, Rmult_1_r by lra.
  pose proof (Rle_abs rate). apply (Rmult_lt_compat_r eps) in L; [|exact Heps]. unfold Rdiv in L. rewrite Rmult_assoc, Rinv_l, Rmult_1_r in L by lra. lra.
Qed.
End Approach.
End Steady.

Lemma no_thr_admissible : admissible (with_thr (ud_default (A := R)) 0).
Proof. destruct default_admissible. constructor; assumption. Qed.
Lemma no_thr_stable : stable (with_thr (ud_default (A := R)) 0).
Proof. destruct default_stable. constructor; try assumption. cbn. lra. Qed.
Lemma no_thr_upwell : small_upwell (with_thr (ud_default (A := R)) 0) 0.
Proof.
  unfold small_upwell, upwell, with_thr, ud_default. cbn [W threstemp ldtime mixed]. rnum. rdec. rewrite INR_IZR_INZ. simpl Z.of_nat. destruct (Req_EM_T 0 0); lra.
Qed.
