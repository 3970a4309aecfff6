(** * P_UDM9: hemispheric mirror, threshold temperature, volcanic forcing, feedback *)
From Coq Require Import Reals ZArith List Lra Lia Bool.
From Verif Require Import Num M_TwoLayer M_UDM Spec_TwoLayer Spec_TwoLayerRuns Spec_UDM Spec_UDMRuns P_TwoLayer P_UDM P_UDM2 P_UDM3 P_UDM4 P_UDM5 P_UDM6.
Import ListNotations.
Open Scope R_scope.

(** ** mirror *)
Section Mirror.
Variable p : ud_pam R.
Hypothesis Hsym : beto p = 0 \/ (foan p = foas p /\ foas p <> 0).
Local Notation q := (mirror_pam p).

Lemma fnso_p : foan p / foas p * beto p = beto p.
Proof. destruct Hsym as [E|[E N]]; [rewrite E; ring|rewrite E; field; exact N]. Qed.
Lemma fnso_q : foas p / foan p * beto p = beto p.
Proof. destruct Hsym as [E|[E N]]; [rewrite E; ring|rewrite E; field; exact N]. Qed.

Lemma m_dt : dt q = dt p. Proof. reflexivity. Qed.
Lemma m_gam a b c : gam_fro q a b c = gam_fro p a b c. Proof. reflexivity. Qed.
Lemma m_A w : arrA q w = arrA p w. Proof. reflexivity. Qed.
Lemma m_B w g : arrB q w g = arrB p w g. Proof. reflexivity. Qed.
Lemma m_C w : arrC q w = arrC p w. Proof. reflexivity. Qed.
Lemma m_w t : wcfac_of q t = wcfac_of p t. Proof. reflexivity. Qed.
Lemma m_rhs_n gn gs a b tn ts x y :
  rhs_n q (setup_ebud1 q gs gn) (setup_ebud2 q gs gn b a) ts tn y x =
  rhs_s p (setup_ebud1 p gn gs) (setup_ebud2 p gn gs a b) tn ts x y.
Proof.
  unfold rhs_n, rhs_s. change (lm q) with (lm p). apply tab_ext. intros i Hi.
  change (beto q) with (beto p). change (dt q) with (dt p). change (dz q i) with (dz p i).
  unfold setup_ebud1, setup_ebud2. cbn [dtrm1n dtrm1s dtrm2n dtrm2s dtrm3n dtrm3s dtrm4n dtrm4s dtmnl1 dtmnl2 dtmnl3 dtmsl1 dtmsl2 dtmsl3].
  rewrite m_w. unfold fnso.
  change (lm q) with (lm p). change (beto q) with (beto p). change (dt q) with (dt p). change (dz q 0) with (dz p 0).
  change (dz q (lm p - 1)) with (dz p (lm p - 1)). change (cpi q) with (cpi p). change (foas q) with (foan p).
  change (ebbeta q) with (ebbeta p). change (rlamdo q) with (rlamdo p).
  rnum. pose proof fnso_p as E.
  rewrite !Rmult_1_l, !Rmult_1_r. rewrite !(Rmult_comm gn gs).
  assert (E2 : forall r, foan p / foas p * (dt p * beto p / r) = dt p * beto p / r).
  { intro r. replace (foan p / foas p * (dt p * beto p / r)) with (dt p * (foan p / foas p * beto p) / r) by (unfold Rdiv; ring). rewrite E. reflexivity. }
  rewrite E2, E. reflexivity.
Qed.
Lemma m_rhs_s gn gs a b tn ts x y :
  rhs_s q (setup_ebud1 q gs gn) (setup_ebud2 q gs gn b a) ts tn y x =
  rhs_n p (setup_ebud1 p gn gs) (setup_ebud2 p gn gs a b) tn ts x y.
Proof.
  unfold rhs_n, rhs_s. change (lm q) with (lm p). apply tab_ext. intros i Hi.
  change (beto q) with (beto p). change (dt q) with (dt p). change (dz q i) with (dz p i).
  unfold setup_ebud1, setup_ebud2. cbn [dtrm1n dtrm1s dtrm2n dtrm2s dtrm3n dtrm3s dtrm4n dtrm4s dtmnl1 dtmnl2 dtmnl3 dtmsl1 dtmsl2 dtmsl3].
  rewrite m_w. unfold fnso.
  change (lm q) with (lm p). change (beto q) with (beto p). change (dt q) with (dt p). change (dz q 0) with (dz p 0).
  change (dz q (lm p - 1)) with (dz p (lm p - 1)). change (cpi q) with (cpi p). change (foan q) with (foas p). change (foas q) with (foan p).
  change (ebbeta q) with (ebbeta p). change (rlamdo q) with (rlamdo p).
  rnum. pose proof fnso_q as E.
  rewrite !Rmult_1_l, !Rmult_1_r. rewrite !(Rmult_comm gn gs).
  assert (E2 : forall r, foas p / foan p * (dt p * beto p / r) = dt p * beto p / r).
  { intro r. replace (foas p / foan p * (dt p * beto p / r)) with (dt p * (foas p / foan p * beto p) / r) by (unfold Rdiv; ring). rewrite E. reflexivity. }
  rewrite E2, E. reflexivity.
Qed.

Definition m_state (s s' : ud_state R) : Prop :=
  u_tn s' = u_ts s /\ u_ts s' = u_tn s /\ u_pfn s' = u_pfs s /\ u_pfs s' = u_pfn s /\ u_rlamda s' = u_rlamda s.
Definition m_acc (x x' : acc R) : Prop :=
  x_tn x' = x_ts x /\ x_ts x' = x_tn x /\ x_t1n x' = x_t1s x /\ x_t1s x' = x_t1n x /\
  x_tempn x' = x_temps x /\ x_temps x' = x_tempn x /\ x_an x' = x_as x /\ x_as x' = x_an x /\
  x_sn x' = x_ss x /\ x_ss x' = x_sn x.

Lemma m_year_acc s s' fn fs vn vs n : refreshed p s -> refreshed q s' -> m_state s s' -> length vn = length vs ->
  m_acc (year_acc p s fn fs vn vs n) (year_acc q s' fs fn vs vn n).
Proof.
  intros Href Href' (S1 & S2 & S3 & S4 & S5) Hv.
  assert (Egn : u_gamn s' = u_gams s) by (rewrite (rf_gamn _ _ Href'), (rf_gams _ _ Href), S5; reflexivity).
  assert (Egs : u_gams s' = u_gamn s) by (rewrite (rf_gams _ _ Href'), (rf_gamn _ _ Href), S5; reflexivity).
  assert (Ef : u_fnx s' = u_fsx s) by (rewrite (rf_fnx _ _ Href'), (rf_fsx _ _ Href), S5; reflexivity).
  assert (Efs : u_fsx s' = u_fnx s) by (rewrite (rf_fsx _ _ Href'), (rf_fnx _ _ Href), S5; reflexivity).
  induction n as [|n IH].
  - unfold m_acc. cbn. repeat split; assumption.
  - rewrite !year_acc_S. set (x := year_acc p s fn fs vn vs n) in *. set (y := year_acc q s' fs fn vs vn n) in *.
    destruct IH as (E1 & E2 & E3 & E4 & E5 & E6 & E7 & E8 & E9 & E10).
    rewrite !substep_eq; try assumption; try (apply year_acc_ok; assumption).
    assert (Q1 : sub_dqn q s' fs vs n = sub_dqs p s fs vn vs n).
    { unfold sub_dqn, sub_dqs. rewrite S3, Hv. reflexivity. }
    assert (Q2 : sub_dqs q s' fn vs vn n = sub_dqn p s fn vn n).
    { unfold sub_dqn, sub_dqs. rewrite S4, Hv. reflexivity. }
    assert (T1 : new_tn q s' fs fn vs vn y n = new_ts p s fn fs vn vs x n).
    { unfold new_tn, new_ts. rewrite Q1, Q2, Egn, Egs, E1, E2, E3, E4. rewrite m_rhs_n. reflexivity. }
    assert (T2 : new_ts q s' fs fn vs vn y n = new_tn p s fn fs vn vs x n).
    { unfold new_tn, new_ts. rewrite Q1, Q2, Egn, Egs, E1, E2, E3, E4. rewrite m_rhs_s. reflexivity. }
    assert (A1 : new_air_n q s' fs fn vs vn y n = new_air_s p s fn fs vn vs x n).
    { unfold new_air_n, new_air_s. rewrite T1, T2, Q1, Q2, Ef, Efs. reflexivity. }
    assert (A2 : new_air_s q s' fs fn vs vn y n = new_air_n p s fn fs vn vs x n).
    { unfold new_air_n, new_air_s. rewrite T1, T2, Q1, Q2, Ef, Efs. reflexivity. }
    unfold m_acc. cbn [x_tn x_ts x_t1n x_t1s x_tempn x_temps x_an x_as x_sn x_ss].
    rewrite T1, T2, A1, A2, E5, E6, E7, E8, E9, E10. repeat split; reflexivity.
Qed.

Lemma m_hav tn ts : havtemp q ts tn = havtemp p tn ts.
Proof.
  rewrite !hav_eq. change (lm q) with (lm p). apply tab_ext. intros i Hi.
  change (thick q i) with (thick p i). change (foan q) with (foas p). change (foas q) with (foan p). ring.
Qed.
Lemma m_anom a b c d : anomalous_radiation q b a d c = anomalous_radiation p a b c d.
Proof.
  unfold anomalous_radiation. change (lm q) with (lm p). change (efficacy q) with (efficacy p).
  rewrite (tab_ext (lm p) _ (fun i => nmul (nmul (nmul WATER_HEAT_CAPACITY WATER_DENSITY) (dz p i))
     (nadd (nmul (nsub (nth i a (nofZ 0)) (nth i c (nofZ 0))) (foan p)) (nmul (nsub (nth i b (nofZ 0)) (nth i d (nofZ 0))) (foas p))))).
  - reflexivity.
  - intros i Hi. change (dz q i) with (dz p i). change (foan q) with (foas p). change (foas q) with (foan p). rnum. ring.
Qed.

Lemma m_year s s' i : refreshed p s -> refreshed q s' -> m_state s s' -> length (i_vn i) = length (i_vs i) ->
  m_state (fst (ud_year p s i)) (fst (ud_year q s' (mirror_in i))) /\
  snd (ud_year q s' (mirror_in i)) = mirror_out (snd (ud_year p s i)).
Proof.
  intros Href Href' Hs Hv.
  assert (Hs' : m_state (ud_set_feedback p s (i_w i)) (ud_set_feedback q s' (i_w i))).
  { unfold ud_set_feedback. change (delta_aero q) with (delta_aero p). destruct (neqb _ _); [exact Hs|].
    destruct Hs as (S1 & S2 & S3 & S4 & S5). unfold m_state, with_feedback. cbn [u_tn u_ts u_pfn u_pfs u_rlamda].
    repeat split; assumption. }
  pose proof (set_feedback_refreshed p s (i_w i) Href) as R1. pose proof (set_feedback_refreshed q s' (i_w i) Href') as R2.
  unfold ud_year, mirror_in. cbn [i_w i_nh i_sh i_vn i_vs].
  set (s1 := ud_set_feedback p s (i_w i)) in *. set (s2 := ud_set_feedback q s' (i_w i)) in *.
  pose proof (m_year_acc s1 s2 (i_nh i) (i_sh i) (i_vn i) (i_vs i) (ldtime p) R1 R2 Hs' Hv) as
    (E1 & E2 & E3 & E4 & E5 & E6 & E7 & E8 & E9 & E10).
  destruct Hs' as (S1 & S2 & S3 & S4 & S5).
  unfold ud_energy_budget. change (ldtime q) with (ldtime p). cbn [fst snd].
  set (x := year_acc p s1 _ _ _ _ _) in *. set (y := year_acc q s2 _ _ _ _ _) in *. split.
  - unfold m_state. cbn [u_tn u_ts u_pfn u_pfs u_rlamda]. repeat split; assumption.
  - unfold mirror_out. cbn [y_dtemp y_nh y_sh y_tn y_ts y_air y_air_n y_air_s y_sea y_sea_n y_sea_s y_ribn y_ribs y_rib y_ohc700 y_ohctot y_anom].
    assert (O1 : ohc700 q (x_tn y) (x_ts y) = ohc700 p (x_tn x) (x_ts x)).
    { unfold ohc700. rewrite E1, E2, m_hav. reflexivity. }
    assert (O2 : ohctot q (x_tn y) (x_ts y) = ohctot p (x_tn x) (x_ts x)).
    { unfold ohctot. rewrite E1, E2, m_hav. reflexivity. }
    rewrite O1, O2, E1, E2, E5, E6, E7, E8, E9, E10, S1, S2, S5, m_anom. rnum. f_equal; try (unfold Rdiv; ring).
Qed.
Lemma m_run ins : forall s s', refreshed p s -> refreshed q s' -> m_state s s' ->
  Forall (fun i => length (i_vn i) = length (i_vs i)) ins ->
  ud_run q s' (map mirror_in ins) = map mirror_out (ud_run p s ins).
Proof.
  induction ins as [|i r IH]; intros s s' H1 H2 H3 H4; [reflexivity|]. inversion H4 as [|? ? Hv Hr]; subst. cbn [map ud_run].
  destruct (m_year s s' i H1 H2 H3 Hv) as [E1 E2].
  pose proof (year_refreshed p s i H1) as R1. pose proof (year_refreshed q s' (mirror_in i) H2) as R2.
  destruct (ud_year p s i) as [t o]. destruct (ud_year q s' (mirror_in i)) as [t' o']. cbn [fst snd] in *.
  rewrite E2. cbn [map]. f_equal. apply IH; assumption.
Qed.
Lemma m_init : m_state (ud_init p) (ud_init q).
Proof. repeat split. Qed.
End Mirror.

Lemma mirror_pam_same p : foan p = foas p -> mirror_pam p = p.
Proof. destruct p; cbn. intros ->. reflexivity. Qed.
Lemma symmetric_run p ins : foan p = foas p -> foas p <> 0 ->
  Forall (fun i => i_nh i = i_sh i /\ i_vn i = i_vs i) ins ->
  map mirror_out (ud_run p (ud_init p) ins) = ud_run p (ud_init p) ins.
Proof.
  intros E N H.
  assert (Hi : map mirror_in ins = ins).
  { induction H as [|i l [H1 H2] Hl IH]; [reflexivity|]. cbn [map]. rewrite IH. f_equal. destruct i; cbn in *. unfold mirror_in; cbn. rewrite H1, H2. reflexivity. }
  rewrite <- (m_run p (or_intror (conj E N)) ins (ud_init p) (ud_init (mirror_pam p))).
  - rewrite Hi, mirror_pam_same by exact E. reflexivity.
  - apply init_refreshed.
  - apply init_refreshed.
  - apply m_init.
  - eapply Forall_impl; [|exact H]. intros i [_ ->]. reflexivity.
Qed.

(** ** threshold temperature *)
Section Thr.
Variable p : ud_pam R.
Variable t : R.
Local Notation q := (with_thr p t).
Lemma wc_zero (r : ud_pam R) : (1 <= ldtime r)%nat -> wcfac_of r 0 = W r / INR (ldtime r).
Proof.
  intro H. rewrite wcfac_eq by exact H. unfold upwell. pose proof (ld_pos r H).
  destruct (Req_EM_T (threstemp r) 0); field; lra.
Qed.
Lemma t_ebud2 gn gs : (1 <= ldtime p)%nat -> setup_ebud2 q gn gs 0 0 = setup_ebud2 p gn gs 0 0.
Proof.
  intro H. unfold setup_ebud2. rewrite (wc_zero q) by exact H. rewrite (wc_zero p) by exact H. reflexivity.
Qed.
Definition t_state (s s' : ud_state R) : Prop :=
  u_tn s' = u_tn s /\ u_ts s' = u_ts s /\ u_pfn s' = u_pfn s /\ u_pfs s' = u_pfs s /\ u_rlamda s' = u_rlamda s /\
  u_fnx s' = u_fnx s /\ u_fsx s' = u_fsx s /\ u_gamn s' = u_gamn s /\ u_gams s' = u_gams s.
Lemma t_first s s' fn fs vn vs : (1 <= ldtime p)%nat -> refreshed p s -> refreshed q s' -> t_state s s' ->
  year_acc q s' fn fs vn vs 1 = year_acc p s fn fs vn vs 1.
Proof.
  intros Hl H1 H2 (S1 & S2 & S3 & S4 & S5 & S6 & S7 & S8 & S9). rewrite !year_acc_S.
  rewrite !substep_eq; try assumption; try (apply year_acc_ok; assumption).
  cbn [year_acc seq fold_left acc0 x_t1n x_t1s x_tempn x_temps x_an x_as x_sn x_ss].
  assert (Q1 : sub_dqn q s' fn vn 0 = sub_dqn p s fn vn 0) by (unfold sub_dqn; rewrite S3; reflexivity).
  assert (Q2 : sub_dqs q s' fs vn vs 0 = sub_dqs p s fs vn vs 0) by (unfold sub_dqs; rewrite S4; reflexivity).
  assert (T1 : new_tn q s' fn fs vn vs (acc0 s') 0 = new_tn p s fn fs vn vs (acc0 s) 0).
  { unfold new_tn. cbn [acc0 x_t1n x_t1s x_tn x_ts]. change (nofZ 0 : R) with 0.
    rewrite Q1, Q2, S8, S9, S1, S2, (wc_zero q Hl), (wc_zero p Hl), t_ebud2 by exact Hl. reflexivity. }
  assert (T2 : new_ts q s' fn fs vn vs (acc0 s') 0 = new_ts p s fn fs vn vs (acc0 s) 0).
  { unfold new_ts. cbn [acc0 x_t1n x_t1s x_tn x_ts]. change (nofZ 0 : R) with 0.
    rewrite Q1, Q2, S8, S9, S1, S2, (wc_zero q Hl), (wc_zero p Hl), t_ebud2 by exact Hl. reflexivity. }
  assert (A1 : new_air_n q s' fn fs vn vs (acc0 s') 0 = new_air_n p s fn fs vn vs (acc0 s) 0).
  { unfold new_air_n. rewrite T1, T2, Q1, Q2, S6, S7. reflexivity. }
  assert (A2 : new_air_s q s' fn fs vn vs (acc0 s') 0 = new_air_s p s fn fs vn vs (acc0 s) 0).
  { unfold new_air_s. rewrite T1, T2, Q1, Q2, S6, S7. reflexivity. }
  change (nofZ 0 : R) with 0.
  rewrite T1, T2, A1, A2, S8, S9, t_ebud2 by exact Hl. reflexivity.
Qed.
Lemma t_year s s' i : ldtime p = 1%nat -> refreshed p s -> refreshed q s' -> t_state s s' ->
  t_state (fst (ud_year p s i)) (fst (ud_year q s' i)) /\ snd (ud_year q s' i) = snd (ud_year p s i).
Proof.
  intros Hl H1 H2 Hs.
  assert (Hs' : t_state (ud_set_feedback p s (i_w i)) (ud_set_feedback q s' (i_w i))).
  { unfold ud_set_feedback. change (delta_aero q) with (delta_aero p). destruct (neqb _ _); [exact Hs|].
    destruct Hs as (S1 & S2 & S3 & S4 & S5 & S6 & S7 & S8 & S9). unfold t_state, with_feedback.
    cbn [u_tn u_ts u_pfn u_pfs u_rlamda u_fnx u_fsx u_gamn u_gams]. repeat split; assumption. }
  pose proof (set_feedback_refreshed p s (i_w i) H1) as R1. pose proof (set_feedback_refreshed q s' (i_w i) H2) as R2.
  unfold ud_year. set (s1 := ud_set_feedback p s (i_w i)) in *. set (s2 := ud_set_feedback q s' (i_w i)) in *.
  unfold ud_energy_budget. change (ldtime q) with (ldtime p). rewrite Hl.
  rewrite (t_first s1 s2 _ _ _ _ ltac:(lia) R1 R2 Hs'). destruct Hs' as (S1 & S2 & S3 & S4 & S5 & S6 & S7 & S8 & S9).
  cbn [fst snd]. split.
  - unfold t_state. cbn [u_tn u_ts u_pfn u_pfs u_rlamda u_fnx u_fsx u_gamn u_gams]. repeat split; assumption.
  - rewrite S1, S2, S5. reflexivity.
Qed.
Lemma t_run ins : forall s s', ldtime p = 1%nat -> refreshed p s -> refreshed q s' -> t_state s s' ->
  ud_run q s' ins = ud_run p s ins.
Proof.
  induction ins as [|i r IH]; intros s s' Hl H1 H2 H3; [reflexivity|]. cbn [ud_run].
  destruct (t_year s s' i Hl H1 H2 H3) as [E1 E2].
  pose proof (year_refreshed p s i H1) as R1. pose proof (year_refreshed q s' i H2) as R2.
  destruct (ud_year p s i) as [u o]. destruct (ud_year q s' i) as [u' o']. cbn [fst snd] in *.
  rewrite E2. f_equal. apply IH; assumption.
Qed.
Lemma t_init : t_state (ud_init p) (ud_init q).
Proof. repeat split. Qed.
End Thr.

(** ** constant volcanic forcing is an offset of this and last year's forcing *)
Lemma nth_repeat_lt (v : R) n k : (k < n)%nat -> nth k (repeat v n) 0 = v.
Proof. revert k. induction n; intros [|k] H; cbn; try lia; [reflexivity|apply IHn; lia]. Qed.
Lemma dq_volc (p : ud_pam R) im f prev v n k : (k < n)%nat -> (1 <= ldtime p)%nat ->
  dq p im f prev (repeat v n) k = dq p im (f + v) (prev + v) (repeat 0 n) k.
Proof.
  intros Hk Hl. unfold dq. rewrite !ramp_eq by exact Hl. rnum. rewrite !nth_repeat_lt by exact Hk. ring.
Qed.
Lemma volc_year_acc p s f g a b n m : (1 <= n)%nat -> (1 <= ldtime p)%nat ->
  year_acc p s f g (repeat a n) (repeat b n) m = year_acc p (shift_prev s a b) (f + a) (g + b) (repeat 0 n) (repeat 0 n) m.
Proof.
  intros Hn Hl. induction m as [|m IH]; [reflexivity|]. rewrite !year_acc_S, IH.
  set (x := year_acc p (shift_prev s a b) _ _ _ _ m). unfold substep. rewrite !repeat_length.
  assert (Hk : (Nat.modulo m n < n)%nat) by (apply Nat.mod_upper_bound; lia).
  rewrite (dq_volc p m f (u_pfn s) a n _ Hk Hl), (dq_volc p m g (u_pfs s) b n _ Hk Hl). reflexivity.
Qed.
Lemma rsum_repeat v n : rsum (repeat v n) = INR n * v.
Proof. induction n; [cbn; ring|]. cbn [repeat rsum fold_right]. fold (rsum (repeat v n)). rewrite IHn, S_INR. ring. Qed.
Lemma nmean_repeat v n : (1 <= n)%nat -> nmean (repeat v n) = v.
Proof.
  intro H. rewrite nmean_rmean. unfold rmean. rewrite rsum_repeat, repeat_length. field. apply not_0_INR. lia.
Qed.
Lemma volc_budget p s f g a b n : (1 <= n)%nat -> (1 <= ldtime p)%nat ->
  ud_energy_budget p s f g (repeat a n) (repeat b n) =
  let '(s', o) := ud_energy_budget p (shift_prev s a b) (f + a) (g + b) (repeat 0 n) (repeat 0 n) in (shift_prev s' (- a) (- b), o).
Proof.
  intros Hn Hl. unfold ud_energy_budget. rewrite volc_year_acc by assumption. rewrite !nmean_repeat by exact Hn.
  unfold shift_prev at 1. cbn [u_tn u_ts u_pfn u_pfs u_rlamda u_fnx u_fsx u_gamn u_gams u_v1 u_v2].
  set (x := year_acc _ _ _ _ _ _ _).
  unfold shift_prev. cbn [u_tn u_ts u_pfn u_pfs u_rlamda u_fnx u_fsx u_gamn u_gams u_v1 u_v2]. rnum.
  replace (f + a + - a) with f by ring. replace (g + b + - b) with g by ring.
  replace (f + a + 0) with (f + a) by ring. replace (g + b + 0) with (g + b) by ring. reflexivity.
Qed.

(** ** pattern feedback, any numbers *)
Section Fb.
Context {A : Type} {N : Num A}.
Lemma fb_history (p : ud_pam A) ws : forall s w, ud_set_feedback p (fold_left (ud_set_feedback p) ws s) w = ud_set_feedback p s w.
Proof.
  induction ws as [|v r IH]; intros s w; [reflexivity|]. cbn [fold_left]. rewrite IH.
  unfold ud_set_feedback. destruct (neqb (delta_aero p) (nofZ 0)); reflexivity.
Qed.
End Fb.
