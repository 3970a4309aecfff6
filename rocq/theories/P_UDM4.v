(** * P_UDM4: heat balance of a sub-step and of a year *)
From Coq Require Import Reals ZArith List Lra Lia Bool.
From Verif Require Import Num M_TwoLayer M_UDM Spec_UDM Spec_UDMRuns P_UDM P_UDM2 P_UDM3.
Import ListNotations.
Open Scope R_scope.

Lemma ebud2_thr0 (p : ud_pam R) gn gs a b c d : threstemp p = 0 -> setup_ebud2 p gn gs a b = setup_ebud2 p gn gs c d.
Proof.
  intro H. unfold setup_ebud2, wcfac_of. rnum. destruct (Req_EM_T (threstemp p) 0); [reflexivity|contradiction].
Qed.

(** state of the loop variables that matters *)
Definition acc_ok (p : ud_pam R) (s : ud_state R) (x : acc R) : Prop :=
  (threstemp p = 0 -> x_v2 x = setup_ebud2 p (u_gamn s) (u_gams s) 0 0) /\
  length (x_tn x) = lm p /\ length (x_ts x) = lm p.

(** sub-step forcing *)
Definition sub_dqn (p : ud_pam R) (s : ud_state R) (f : R) (vn : list R) (im : nat) : R :=
  dq p im f (u_pfn s) vn (Nat.modulo im (length vn)).
Definition sub_dqs (p : ud_pam R) (s : ud_state R) (f : R) (vn vs : list R) (im : nat) : R :=
  dq p im f (u_pfs s) vs (Nat.modulo im (length vn)).

Section Step.
Variable p : ud_pam R.
Variable s : ud_state R.
Variables (fnh fsh : R) (vn vs : list R).
Local Notation sub := (substep p s fnh fsh vn vs).

(** the sub-step with refreshed coefficients *)
Definition new_tn (x : acc R) (im : nat) : list R :=
  band (arrA p (wcfac_of p (x_t1n x))) (arrB p (wcfac_of p (x_t1n x)) (gam_fro p (u_gamn s) (u_gams s) (foan p)))
       (arrC p (wcfac_of p (x_t1n x)))
       (rhs_n p (setup_ebud1 p (u_gamn s) (u_gams s)) (setup_ebud2 p (u_gamn s) (u_gams s) (x_t1n x) (x_t1s x))
          (x_tn x) (x_ts x) (sub_dqn p s fnh vn im) (sub_dqs p s fsh vn vs im)).
Definition new_ts (x : acc R) (im : nat) : list R :=
  band (arrA p (wcfac_of p (x_t1s x))) (arrB p (wcfac_of p (x_t1s x)) (gam_fro p (u_gams s) (u_gamn s) (foas p)))
       (arrC p (wcfac_of p (x_t1s x)))
       (rhs_s p (setup_ebud1 p (u_gamn s) (u_gams s)) (setup_ebud2 p (u_gamn s) (u_gams s) (x_t1n x) (x_t1s x))
          (x_tn x) (x_ts x) (sub_dqn p s fnh vn im) (sub_dqs p s fsh vn vs im)).
Definition new_air_n (x : acc R) (im : nat) : R :=
  air p (foan p) (u_fnx s) (sub_dqn p s fnh vn im) (nth 0 (new_tn x im) 0)
        (foas p) (u_fsx s) (sub_dqs p s fsh vn vs im) (nth 0 (new_ts x im) 0).
Definition new_air_s (x : acc R) (im : nat) : R :=
  air p (foas p) (u_fsx s) (sub_dqs p s fsh vn vs im) (nth 0 (new_ts x im) 0)
        (foan p) (u_fnx s) (sub_dqn p s fnh vn im) (nth 0 (new_tn x im) 0).

Hypothesis Href : refreshed p s.

Lemma substep_eq x im : acc_ok p s x ->
  sub x im =
  {| x_tn := new_tn x im; x_ts := new_ts x im;
     x_v2 := setup_ebud2 p (u_gamn s) (u_gams s) (x_t1n x) (x_t1s x);
     x_t1n := nth 0 (new_tn x im) 0; x_t1s := nth 0 (new_ts x im) 0;
     x_tempn := x_tempn x + (foan p * nth 0 (new_tn x im) 0 + (1 - foan p) * new_air_n x im) / INR (ldtime p);
     x_temps := x_temps x + (foas p * nth 0 (new_ts x im) 0 + (1 - foas p) * new_air_s x im) / INR (ldtime p);
     x_an := x_an x + new_air_n x im / INR (ldtime p); x_as := x_as x + new_air_s x im / INR (ldtime p);
     x_sn := x_sn x + nth 0 (new_tn x im) 0 / INR (ldtime p);
     x_ss := x_ss x + nth 0 (new_ts x im) 0 / INR (ldtime p) |}.
Proof.
  intros (Hv & _ & _).
  assert (Hw : (if neqb (threstemp p) 0 then x_v2 x else setup_ebud2 p (u_gamn s) (u_gams s) (x_t1n x) (x_t1s x))
               = setup_ebud2 p (u_gamn s) (u_gams s) (x_t1n x) (x_t1s x)).
  { rnum. destruct (Req_EM_T (threstemp p) 0) as [E|E]; [|reflexivity].
    rewrite (Hv E). apply ebud2_thr0. exact E. }
  unfold substep. change (nofZ 0 : R) with 0 in *. rewrite Hw. rewrite (rf_v1 _ _ Href).
  change (nofZ (Z.of_nat (ldtime p)) : R) with (IZR (Z.of_nat (ldtime p))). rewrite IZR_nat. reflexivity.
Qed.

Lemma rhs_n_length a b c d e f : length (rhs_n (A:=R) p a b c d e f) = lm p.
Proof. apply tab_length. Qed.
Lemma rhs_s_length a b c d e f : length (rhs_s (A:=R) p a b c d e f) = lm p.
Proof. apply tab_length. Qed.
Lemma new_tn_length x im : length (new_tn x im) = lm p.
Proof. unfold new_tn. rewrite band_length. apply rhs_n_length. Qed.
Lemma new_ts_length x im : length (new_ts x im) = lm p.
Proof. unfold new_ts. rewrite band_length. apply rhs_s_length. Qed.
Lemma substep_ok x im : acc_ok p s x -> acc_ok p s (sub x im).
Proof.
  intro H. rewrite substep_eq by exact H. unfold acc_ok. cbn [x_v2 x_tn x_ts]. split; [|split].
  - intro E. apply ebud2_thr0. exact E.
  - apply new_tn_length.
  - apply new_ts_length.
Qed.
Lemma acc0_ok : acc_ok p s (acc0 s).
Proof. destruct Href. repeat split; assumption. Qed.
Lemma year_acc_S n : year_acc p s fnh fsh vn vs (S n) = sub (year_acc p s fnh fsh vn vs n) n.
Proof.
  unfold year_acc. replace (seq 0 (S n)) with (seq 0 n ++ [n]) by (symmetry; apply (seq_S n 0)).
  rewrite fold_left_app. reflexivity.
Qed.
Lemma year_acc_ok n : acc_ok p s (year_acc p s fnh fsh vn vs n).
Proof. induction n; [apply acc0_ok|]. rewrite year_acc_S. apply substep_ok. exact IHn. Qed.

(** ** heat balance *)
Hypothesis Ha : admissible p.
Hypothesis Hrl : 0 <= u_rlamda s.

Lemma gn_eq : u_gamn s = foan p + u_rlamda s / rlamdo p + ebbeta p / rlamdo p.
Proof. apply (rf_gamn _ _ Href). Qed.
Lemma gs_eq : u_gams s = foas p + u_rlamda s / rlamdo p + ebbeta p / rlamdo p.
Proof. apply (rf_gams _ _ Href). Qed.
Lemma gam_n_ok : 0 <= gam_fro p (u_gamn s) (u_gams s) (foan p).
Proof. rewrite gn_eq, gs_eq. apply gam_nonneg_n; assumption. Qed.
Lemma gam_s_ok : 0 <= gam_fro p (u_gams s) (u_gamn s) (foas p).
Proof. rewrite gn_eq, gs_eq. apply gam_nonneg_s; assumption. Qed.
Lemma det_ok : 0 < u_gams s * u_gamn s - ebbeta p / rlamdo p * (ebbeta p / rlamdo p).
Proof. rewrite gn_eq, gs_eq. apply det_pos; assumption. Qed.
Lemma gs_pos : 0 < u_gams s.
Proof.
  rewrite gs_eq. pose proof (b_nonneg p Ha). pose proof (r_nonneg p _ Ha Hrl). destruct Ha. lra.
Qed.
Lemma gn_pos : 0 < u_gamn s.
Proof.
  rewrite gn_eq. pose proof (b_nonneg p Ha). pose proof (r_nonneg p _ Ha Hrl). destruct Ha. lra.
Qed.

Lemma dom_n x : small_upwell p (x_t1n x) ->
  forall d, length d = lm p ->
  Forall dom (band_rows (arrA p (wcfac_of p (x_t1n x)))
     (arrB p (wcfac_of p (x_t1n x)) (gam_fro p (u_gamn s) (u_gams s) (foan p))) (arrC p (wcfac_of p (x_t1n x))) d).
Proof.
  intros [Hw1 Hw2] d Hd. destruct Ha as [A1 A2 A3 A4 A5 A6 A7 A8 A9]. rewrite wcfac_eq by assumption.
  apply sys_dom; try assumption; [apply rk_nonneg; assumption|apply gam_n_ok].
Qed.
Lemma dom_s x : small_upwell p (x_t1s x) ->
  forall d, length d = lm p ->
  Forall dom (band_rows (arrA p (wcfac_of p (x_t1s x)))
     (arrB p (wcfac_of p (x_t1s x)) (gam_fro p (u_gams s) (u_gamn s) (foas p))) (arrC p (wcfac_of p (x_t1s x))) d).
Proof.
  intros [Hw1 Hw2] d Hd. destruct Ha as [A1 A2 A3 A4 A5 A6 A7 A8 A9]. rewrite wcfac_eq by assumption.
  apply sys_dom; try assumption; [apply rk_nonneg; assumption|apply gam_s_ok].
Qed.

Lemma air_flux lo fo1 fo2 g1 g2 b D q dq1 dq2 t1 t2 :
  D = g2 * g1 - b * b -> 0 < lo -> 0 < g2 -> 0 < D ->
  q * (fo2 * (lo * b) / D * t2 + g2 / D * dq1 + b / D * dq2) - lo * (1 - fo1 * g2 / D) * q * t1 =
  q * (lo * ((dq1 + fo1 * lo * t1 + lo * b * (dq2 + fo2 * lo * t2) / (lo * g2))
             / (lo * g1 - lo * b * (lo * b) / (lo * g2)) - t1)).
Proof.
  intros HD Hlo Hg HDp.
  assert (E1 : lo * g1 - lo * b * (lo * b) / (lo * g2) = lo * D / g2) by (rewrite HD; field; lra).
  rewrite E1. clear E1. clear HD. field. repeat split; lra.
Qed.

(** heat gained by a hemisphere from the air, with the other hemisphere's sea temperature
    taken before the step *)
Definition lag_air_n (x : acc R) im : R :=
  air p (foan p) (u_fnx s) (sub_dqn p s fnh vn im) (nth 0 (new_tn x im) 0)
        (foas p) (u_fsx s) (sub_dqs p s fsh vn vs im) (nth 0 (x_ts x) 0).
Definition lag_air_s (x : acc R) im : R :=
  air p (foas p) (u_fsx s) (sub_dqs p s fsh vn vs im) (nth 0 (new_ts x im) 0)
        (foan p) (u_fnx s) (sub_dqn p s fnh vn im) (nth 0 (x_tn x) 0).

Lemma fnx_eq : u_fnx s = rlamdo p * u_gamn s.
Proof. rewrite gn_eq, (rf_fnx _ _ Href). destruct Ha. field. lra. Qed.
Lemma fsx_eq : u_fsx s = rlamdo p * u_gams s.
Proof. rewrite gs_eq, (rf_fsx _ _ Href). destruct Ha. field. lra. Qed.
Lemma eb_eq : ebbeta p = rlamdo p * (ebbeta p / rlamdo p).
Proof. destruct Ha. field. lra. Qed.

Lemma heat_n x im : small_upwell p (x_t1n x) ->
  column p (new_tn x im) = column p (x_tn x)
    + beto p * (dt p / c1) * sumn (fun i => nth i (x_ts x) 0 - nth i (x_tn x) 0) (lm p)
    + dt p / c1 * (rlamdo p * (lag_air_n x im - nth 0 (new_tn x im) 0))
    - (efficacy p - 1) * (rakapafac p / 100) * (nth 0 (new_tn x im) 0 - nth 1 (new_tn x im) 0).
Proof.
  intro Hw. pose proof (ad_lm _ Ha) as A1. pose proof (ad_mixed _ Ha) as A3. pose proof c1_pos as Hc.
  set (d := rhs_n p (setup_ebud1 p (u_gamn s) (u_gams s)) (setup_ebud2 p (u_gamn s) (u_gams s) (x_t1n x) (x_t1s x))
          (x_tn x) (x_ts x) (sub_dqn p s fnh vn im) (sub_dqs p s fsh vn vs im)).
  assert (Hd : length d = lm p) by apply rhs_n_length.
  pose proof (band_solves _ _ _ d (dom_n x Hw d Hd)) as Hs.
  pose proof (matrix_conserves p A1 A3 _ _ d _ Hd Hs) as Hm.
  unfold d in Hm at 1. rewrite rhs_n_sum in Hm by assumption. fold (new_tn x im) in Hm.
  change (band _ _ _ d) with (new_tn x im) in Hm.
  rewrite !wsum_column in Hm.
  pose proof (air_flux (rlamdo p) (foan p) (foas p) (u_gamn s) (u_gams s) (ebbeta p / rlamdo p)
    _ (dt p / c1) (sub_dqn p s fnh vn im) (sub_dqs p s fsh vn vs im)
    (nth 0 (new_tn x im) 0) (nth 0 (x_ts x) 0) eq_refl (ad_rlamdo _ Ha) gs_pos det_ok) as Hf.
  rewrite <- eb_eq in Hf.
  assert (Hair : lag_air_n x im = (sub_dqn p s fnh vn im + foan p * rlamdo p * nth 0 (new_tn x im) 0 +
    ebbeta p * (sub_dqs p s fsh vn vs im + foas p * rlamdo p * nth 0 (x_ts x) 0) / (rlamdo p * u_gams s)) /
    (rlamdo p * u_gamn s - ebbeta p * ebbeta p / (rlamdo p * u_gams s))).
  { unfold lag_air_n, air. rewrite fnx_eq, fsx_eq. rnum. reflexivity. }
  rewrite Hair.
  assert (Hg : gam_fro p (u_gamn s) (u_gams s) (foan p) * mixed p =
     rlamdo p * (1 - foan p * u_gams s / (u_gams s * u_gamn s - ebbeta p / rlamdo p * (ebbeta p / rlamdo p))) * (dt p / c1)).
  { unfold gam_fro. cbn [dz]. rnum. generalize (foan p * u_gams s / (u_gams s * u_gamn s - ebbeta p / rlamdo p * (ebbeta p / rlamdo p))).
    intro r. field. split; lra. }
  rewrite Hg in Hm. lra.
Qed.
Lemma heat_s x im : small_upwell p (x_t1s x) ->
  column p (new_ts x im) = column p (x_ts x)
    + foan p / foas p * beto p * (dt p / c1) * sumn (fun i => nth i (x_tn x) 0 - nth i (x_ts x) 0) (lm p)
    + dt p / c1 * (rlamdo p * (lag_air_s x im - nth 0 (new_ts x im) 0))
    - (efficacy p - 1) * (rakapafac p / 100) * (nth 0 (new_ts x im) 0 - nth 1 (new_ts x im) 0).
Proof.
  intro Hw. pose proof (ad_lm _ Ha) as A1. pose proof (ad_mixed _ Ha) as A3. pose proof c1_pos as Hc.
  set (d := rhs_s p (setup_ebud1 p (u_gamn s) (u_gams s)) (setup_ebud2 p (u_gamn s) (u_gams s) (x_t1n x) (x_t1s x))
          (x_tn x) (x_ts x) (sub_dqn p s fnh vn im) (sub_dqs p s fsh vn vs im)).
  assert (Hd : length d = lm p) by apply rhs_s_length.
  pose proof (band_solves _ _ _ d (dom_s x Hw d Hd)) as Hs.
  pose proof (matrix_conserves p A1 A3 _ _ d _ Hd Hs) as Hm.
  unfold d in Hm at 1. rewrite rhs_s_sum in Hm by assumption.
  change (band _ _ _ d) with (new_ts x im) in Hm.
  rewrite !wsum_column in Hm.
  assert (Hdet : 0 < u_gamn s * u_gams s - ebbeta p / rlamdo p * (ebbeta p / rlamdo p)).
  { pose proof det_ok. rewrite (Rmult_comm (u_gamn s)). assumption. }
  pose proof (air_flux (rlamdo p) (foas p) (foan p) (u_gams s) (u_gamn s) (ebbeta p / rlamdo p)
    _ (dt p / c1) (sub_dqs p s fsh vn vs im) (sub_dqn p s fnh vn im)
    (nth 0 (new_ts x im) 0) (nth 0 (x_tn x) 0) eq_refl (ad_rlamdo _ Ha) gn_pos Hdet) as Hf.
  rewrite <- eb_eq in Hf.
  assert (Hair : lag_air_s x im = (sub_dqs p s fsh vn vs im + foas p * rlamdo p * nth 0 (new_ts x im) 0 +
    ebbeta p * (sub_dqn p s fnh vn im + foan p * rlamdo p * nth 0 (x_tn x) 0) / (rlamdo p * u_gamn s)) /
    (rlamdo p * u_gams s - ebbeta p * ebbeta p / (rlamdo p * u_gamn s))).
  { unfold lag_air_s, air. rewrite fnx_eq, fsx_eq. rnum. reflexivity. }
  rewrite Hair.
  assert (Hg : gam_fro p (u_gams s) (u_gamn s) (foas p) * mixed p =
     rlamdo p * (1 - foas p * u_gamn s / (u_gamn s * u_gams s - ebbeta p / rlamdo p * (ebbeta p / rlamdo p))) * (dt p / c1)).
  { unfold gam_fro. cbn [dz]. rnum. generalize (foas p * u_gamn s / (u_gamn s * u_gams s - ebbeta p / rlamdo p * (ebbeta p / rlamdo p))).
    intro r. field. split; lra. }
  rewrite Hg in Hm. rewrite (Rmult_comm (u_gams s) (u_gamn s)) in Hm. lra.
Qed.

Lemma sumn_opp f n : sumn (fun i => - f i) n = - sumn f n.
Proof. induction n; cbn [sumn]; [ring|]. rewrite IHn. ring. Qed.
Lemma sumn_sub_swap f g n : sumn (fun i => f i - g i) n = - sumn (fun i => g i - f i) n.
Proof. rewrite <- sumn_opp. apply sumn_ext. intros. ring. Qed.

Lemma heat_step x im : small_upwell p (x_t1n x) -> small_upwell p (x_t1s x) ->
  ocean p (new_tn x im) (new_ts x im) - ocean p (x_tn x) (x_ts x) =
    dt p / c1 * (foan p * rlamdo p * (lag_air_n x im - nth 0 (new_tn x im) 0)
                 + foas p * rlamdo p * (lag_air_s x im - nth 0 (new_ts x im) 0))
    - (efficacy p - 1) * (rakapafac p / 100) *
      (foan p * (nth 0 (new_tn x im) 0 - nth 1 (new_tn x im) 0) + foas p * (nth 0 (new_ts x im) 0 - nth 1 (new_ts x im) 0)).
Proof.
  intros H1 H2. unfold ocean. rewrite (heat_n x im H1), (heat_s x im H2).
  rewrite (sumn_sub_swap (fun i => nth i (x_tn x) 0)).
  set (S1 := sumn _ (lm p)). pose proof (ad_foas _ Ha). pose proof c1_pos. field. split; lra.
Qed.

(** without interhemispheric air exchange *)
Lemma air_eq_n x im : ebbeta p = 0 -> lag_air_n x im = new_air_n x im /\
  foan p * rlamdo p * (new_air_n x im - nth 0 (new_tn x im) 0) = sub_dqn p s fnh vn im - u_rlamda s * new_air_n x im.
Proof.
  intro He. pose proof (rf_fnx _ _ Href) as Hx. pose proof (ad_foan _ Ha). pose proof (ad_rlamdo _ Ha).
  unfold lag_air_n, new_air_n, air. rnum. rewrite He in *. split.
  - unfold Rdiv. rewrite !Rmult_0_l. reflexivity.
  - assert (H3 : 0 < u_fnx s) by nra. rewrite Hx in *. unfold Rdiv. rewrite !Rmult_0_l, !Rplus_0_r, !Rminus_0_r.
    rewrite Rplus_0_r in H3. field. lra.
Qed.
Lemma air_eq_s x im : ebbeta p = 0 -> lag_air_s x im = new_air_s x im /\
  foas p * rlamdo p * (new_air_s x im - nth 0 (new_ts x im) 0) = sub_dqs p s fsh vn vs im - u_rlamda s * new_air_s x im.
Proof.
  intro He. pose proof (rf_fsx _ _ Href) as Hx. pose proof (ad_foas _ Ha). pose proof (ad_rlamdo _ Ha).
  unfold lag_air_s, new_air_s, air. rnum. rewrite He in *. split.
  - unfold Rdiv. rewrite !Rmult_0_l. reflexivity.
  - assert (H3 : 0 < u_fsx s) by nra. rewrite Hx in *. unfold Rdiv. rewrite !Rmult_0_l, !Rplus_0_r, !Rminus_0_r.
    rewrite Rplus_0_r in H3. field. lra.
Qed.

Lemma heat_year n : efficacy p = 1 -> ebbeta p = 0 ->
  (forall k, (k < n)%nat -> small_upwell p (x_t1n (year_acc p s fnh fsh vn vs k)) /\
                            small_upwell p (x_t1s (year_acc p s fnh fsh vn vs k))) ->
  ocean p (x_tn (year_acc p s fnh fsh vn vs n)) (x_ts (year_acc p s fnh fsh vn vs n)) - ocean p (u_tn s) (u_ts s) =
  dt p / c1 * (sumn (fun k => sub_dqn p s fnh vn k + sub_dqs p s fsh vn vs k) n
               - u_rlamda s * INR (ldtime p) * (x_an (year_acc p s fnh fsh vn vs n) + x_as (year_acc p s fnh fsh vn vs n))).
Proof.
  intros He Hb. induction n as [|n IH]; intro Hw.
  - cbn [year_acc seq fold_left acc0 x_tn x_ts x_an x_as sumn]. rnum. ring.
  - specialize (IH ltac:(intros; apply Hw; lia)). destruct (Hw n ltac:(lia)) as [W1 W2].
    rewrite year_acc_S. set (x := year_acc p s fnh fsh vn vs n) in *.
    rewrite substep_eq by apply year_acc_ok. cbn [x_tn x_ts x_an x_as sumn].
    pose proof (heat_step x n W1 W2) as Hst.
    destruct (air_eq_n x n Hb) as [E1 E2]. destruct (air_eq_s x n Hb) as [E3 E4].
    rewrite E1, E3, E2, E4, He in Hst.
    pose proof (ld_pos p (ad_ld _ Ha)).
    replace (u_rlamda s * INR (ldtime p) * (x_an x + new_air_n x n / INR (ldtime p) + (x_as x + new_air_s x n / INR (ldtime p))))
      with (u_rlamda s * INR (ldtime p) * (x_an x + x_as x) + u_rlamda s * (new_air_n x n + new_air_s x n)) by (field; lra).
    lra.
Qed.
End Step.
