(** * P_UDM7: order preservation *)
From Coq Require Import Reals ZArith List Lra Lia Bool.
From Verif Require Import Num M_TwoLayer M_UDM Spec_TwoLayer Spec_TwoLayerRuns Spec_UDM Spec_UDMRuns P_TwoLayer P_UDM P_UDM2 P_UDM3 P_UDM4 P_UDM5 P_UDM6.
Import ListNotations.
Open Scope R_scope.

Lemma Forall2_len {B C} (P : B -> C -> Prop) l m : Forall2 P l m -> length l = length m.
Proof. induction 1; cbn; congruence. Qed.
Definition row_le (r q : row R) : Prop := r_l r = r_l q /\ r_b r = r_b q /\ r_u r = r_u q /\ r_d r <= r_d q.
Lemma thomas_mono rows : forall rows' cp dp dp', Forall mrow rows -> Forall2 row_le rows rows' ->
  -1 <= cp <= 0 -> dp <= dp' -> Forall2 Rle (thomas cp dp rows) (thomas cp dp' rows').
Proof.
  induction rows as [|r rest IH]; intros rows' cp dp dp' Hm Hle Hc Hp; inversion Hle as [|? q ? rest' Hr Hrest]; subst; [constructor|].
  inversion Hm as [|? ? H1 H2]; subst. rewrite !thomas_cons. destruct Hr as (E1 & E2 & E3 & E4).
  rewrite <- E1, <- E2, <- E3. destruct H1 as (Hl & Hu & Hb).
  assert (Hpos : - r_u r < r_b r - r_l r * cp) by nra.
  assert (Hm0 : 0 < / (r_b r - r_l r * cp)) by (apply Rinv_0_lt_compat; lra).
  assert (Hc' : -1 <= r_u r / (r_b r - r_l r * cp) <= 0).
  { unfold Rdiv. split; [|nra]. apply (Rmult_le_reg_r (r_b r - r_l r * cp)); [lra|].
    rewrite Rmult_assoc, Rinv_l by lra. lra. }
  assert (Hd' : (r_d r - r_l r * dp) / (r_b r - r_l r * cp) <= (r_d q - r_l r * dp') / (r_b r - r_l r * cp)).
  { unfold Rdiv. apply Rmult_le_compat_r; [lra|nra]. }
  specialize (IH rest' _ _ _ H2 Hrest Hc' Hd').
  constructor; [|exact IH].
  inversion IH as [E|x y xs ys Hxy Hxs]; subst; cbn [hd]; [lra|]. nra.
Qed.
Lemma Forall2_nth (l m : list R) i : Forall2 Rle l m -> nth i l 0 <= nth i m 0.
Proof. intro H. revert i. induction H; intros [|i]; cbn [nth]; try lra; auto. Qed.
Lemma nth_Forall2 (l m : list R) : length l = length m -> (forall i, (i < length l)%nat -> nth i l 0 <= nth i m 0) -> Forall2 Rle l m.
Proof.
  revert m. induction l as [|x l IH]; intros [|y m] Hl H; try discriminate; constructor.
  - apply (H 0%nat). cbn; lia.
  - apply IH; [cbn in Hl; congruence|]. intros i Hi. apply (H (S i)). cbn; lia.
Qed.
Lemma Forall2_tab n f g : (forall i, (i < n)%nat -> f i <= g i) -> Forall2 Rle (tab n f) (tab n g).
Proof.
  intro H. apply nth_Forall2; rewrite ?tab_length; [reflexivity|]. intros i Hi. rewrite !nth_tab by exact Hi. apply H. exact Hi.
Qed.
Lemma band_mono a b c d d' : Forall mrow (band_rows a b c d) -> Forall2 Rle d d' -> Forall2 Rle (band a b c d) (band a b c d').
Proof.
  intros Hm Hd. unfold band. rnum. apply thomas_mono; try lra; [exact Hm|].
  unfold band_rows. rewrite <- (Forall2_len _ _ _ Hd). clear Hm.
  assert (H : forall (ff gg : nat -> row R) n, (forall i, (i < n)%nat -> row_le (ff i) (gg i)) -> Forall2 row_le (tab n ff) (tab n gg)).
  { intros ff gg n. revert ff gg. induction n as [|n IH]; intros ff gg H; [constructor|]. rewrite !tab_S. constructor; [apply H; lia|].
    apply IH. intros. apply H. lia. }
  apply H. intros i Hi. unfold row_le. cbn [r_l r_b r_u r_d]. repeat split. apply Forall2_nth. exact Hd.
Qed.

Section Mono.
Variable p : ud_pam R.
Hypothesis Ha : admissible p.
Hypothesis Hst : stable p.

Lemma L_pos : 0 < INR (ldtime p). Proof. apply ld_pos, (ad_ld _ Ha). Qed.
Lemma q_nonneg : 0 <= dt p / c1. Proof. left. apply Rdiv_lt_0_compat; [apply dt_pos, (ad_ld _ Ha)|apply c1_pos]. Qed.
Lemma fnso_pos : 0 < foan p / foas p. Proof. apply Rdiv_lt_0_compat; apply Ha. Qed.

(** conditions on the upwelling of a sub-step *)
Lemma upwell_range t : 0 <= t -> upwelling_not_reversed p t -> 0 <= upwell p t <= W p / INR (ldtime p).
Proof.
  intros Ht Hr. pose proof L_pos as HL. unfold upwell.
  assert (Hphi : 0 <= (if Req_EM_T (threstemp p) 0 then 1 else 1 - 3 / 10 * t / threstemp p) <= 1).
  { destruct (Req_EM_T (threstemp p) 0) as [E|E]; [lra|]. destruct Hr as [Hr|Hr]; [contradiction|].
    pose proof (st_thr _ Hst). assert (Hp : 0 < threstemp p) by lra.
    assert (0 <= 3 / 10 * t / threstemp p <= 1); [|lra]. split.
    - apply Rmult_le_pos; [lra|]. left. apply Rinv_0_lt_compat. exact Hp.
    - apply (Rmult_le_reg_r (threstemp p)); [exact Hp|]. unfold Rdiv at 1. rewrite Rmult_assoc, Rinv_l by lra. lra. }
  pose proof (st_W _ Hst) as HW.
  set (phi := if Req_EM_T (threstemp p) 0 then 1 else 1 - 3 / 10 * t / threstemp p) in *.
  assert (Hi : 0 < / INR (ldtime p)) by (apply Rinv_0_lt_compat; exact HL).
  unfold Rdiv. split; [apply Rmult_le_pos; [nra|lra]|]. apply Rmult_le_compat_r; [lra|nra].
Qed.
Lemma W_diff w : 0 <= w <= W p / INR (ldtime p) -> w * 100 <= rakapafac p.
Proof.
  intro Hw. pose proof L_pos as HL. unfold rakapafac, rakapa. rewrite dt_eq. rnum. rdec.
  pose proof (st_diff _ Hst) as Hd.
  apply Rle_trans with (W p / INR (ldtime p) * 100); [lra|].
  replace (2 * (1 / 10000 * akapa p) * (year_s / INR (ldtime p))) with (2 * (akapa p / 10000) * year_s * / INR (ldtime p)) by (field; lra).
  replace (W p / INR (ldtime p) * 100) with (W p * 100 * / INR (ldtime p)) by (field; lra).
  apply Rmult_le_compat_r; [left; apply Rinv_0_lt_compat; exact HL|exact Hd].
Qed.

(** explicit coefficients *)
Let be := beto p * (dt p / c1).
Lemma be_nonneg : 0 <= be.
Proof. apply Rmult_le_pos; [apply (st_beto _ Hst)|apply q_nonneg]. Qed.
Lemma be_mixed w : 0 <= w <= W p / INR (ldtime p) ->
  0 <= 1 - cpi p * w / mixed p - be / mixed p /\ 0 <= 1 - cpi p * w / mixed p - foan p / foas p * be / mixed p.
Proof.
  intro Hw. pose proof (st_exp _ Hst) as He. pose proof be_nonneg as Hbe. pose proof (ad_mixed _ Ha) as Hm. pose proof L_pos.
  assert (Hi : 0 < / mixed p) by (apply Rinv_0_lt_compat; exact Hm). pose proof fnso_pos as Hf.
  replace ((1 + foan p / foas p) * beto p * (year_s / INR (ldtime p)) / (c_solver * mixed p))
     with ((1 + foan p / foas p) * be / mixed p) in He.
  2:{ unfold be. rewrite dt_eq, c1_eq. pose proof (ad_foas _ Ha). unfold c_solver. field. lra. }
  pose proof (st_cpi _ Hst).
  assert (H1 : cpi p * w / mixed p <= cpi p * (W p / INR (ldtime p)) / mixed p).
  { unfold Rdiv at 1 2. apply Rmult_le_compat_r; [lra|]. apply Rmult_le_compat_l; lra. }
  assert (H2 : (1 + foan p / foas p) * be / mixed p = be / mixed p + foan p / foas p * be / mixed p) by (field; pose proof (ad_foas _ Ha); lra).
  assert (H3 : 0 <= be / mixed p) by (apply Rmult_le_pos; lra).
  assert (H4 : 0 <= foan p / foas p * be / mixed p) by (apply Rmult_le_pos; [apply Rmult_le_pos|]; lra).
  split; lra.
Qed.
Lemma be_deep : be / 100 <= 1 /\ foan p / foas p * be / 100 <= 1.
Proof.
  pose proof (st_exch _ Hst) as He. pose proof be_nonneg as Hbe. pose proof fnso_pos as Hf. pose proof L_pos.
  replace ((1 + foan p / foas p) * beto p * (year_s / INR (ldtime p)) / (c_solver * 100))
     with ((1 + foan p / foas p) * be / 100) in He.
  2:{ unfold be. rewrite dt_eq, c1_eq. pose proof (ad_foas _ Ha). unfold c_solver. field. lra. }
  assert (0 <= foan p / foas p * be) by (apply Rmult_le_pos; lra). lra.
Qed.

(** right-hand sides are monotone *)
Section R.
Variables (gn gs t1n t1s : R).
Hypothesis Hgn : 0 < gn. Hypothesis Hgs : 0 < gs.
Hypothesis Hdet : 0 < gs * gn - ebbeta p / rlamdo p * (ebbeta p / rlamdo p).
Hypothesis Hwn : 0 <= wcfac_of p t1n <= W p / INR (ldtime p).
Hypothesis Hws : 0 <= wcfac_of p t1s <= W p / INR (ldtime p).
Let w1 := setup_ebud1 p gn gs.
Let w2 := setup_ebud2 p gn gs t1n t1s.

Lemma coefs_nonneg : 0 <= dtrm1n w2 /\ 0 <= dtrm1s w2 /\ 0 <= dtrm2n w1 /\ 0 <= dtrm2s w1 /\ 0 <= dtrm3n w1 /\ 0 <= dtrm3s w1 /\
  0 <= dtrm4n w1 /\ 0 <= dtrm4s w1 /\ 0 <= dtmnl1 w1 /\ 0 <= dtmsl1 w1 /\ 0 <= dtmnl2 w2 /\ 0 <= dtmsl2 w2 /\ 0 <= dtmnl3 w1 /\ 0 <= dtmsl3 w1.
Proof.
  pose proof (be_mixed _ Hwn) as [Hm1 _]. pose proof (be_mixed _ Hws) as [_ Hm2]. destruct be_deep as [Hd1 Hd2].
  pose proof be_nonneg as Hbe. pose proof c1_pos as Hc. pose proof (ad_mixed _ Ha) as Hm. pose proof fnso_pos as Hf.
  pose proof (ad_lm _ Ha) as Hlm. pose proof (dt_pos p (ad_ld _ Ha)) as Hdt. pose proof (ad_foan _ Ha). pose proof (ad_foas _ Ha).
  pose proof (ad_ebbeta _ Ha). pose proof (b_nonneg p Ha) as Hb. pose proof (st_beto _ Hst) as Hbt. pose proof (st_cpi _ Hst) as Hcp.
  assert (Hc1 : 0 < dt p / (c1 * mixed p)) by (apply Rdiv_lt_0_compat; [exact Hdt|apply Rmult_lt_0_compat; assumption]).
  assert (Hid : 0 < / (gs * gn - ebbeta p / rlamdo p * (ebbeta p / rlamdo p))) by (apply Rinv_0_lt_compat; exact Hdet).
  destruct (lm p) as [|[|l]] eqn:El; try lia.
  unfold w1, w2. cbn [setup_ebud1 setup_ebud2 dtrm1n dtrm1s dtrm2n dtrm2s dtrm3n dtrm3s dtrm4n dtrm4s dtmnl1 dtmnl2 dtmnl3 dtmsl1 dtmsl2 dtmsl3].
  rewrite El. cbn [Nat.sub dz]. unfold fnso. rnum. rewrite !Rmult_1_l, !Rmult_1_r.
  set (ID := gs * gn - ebbeta p / rlamdo p * (ebbeta p / rlamdo p)) in *.
  assert (E1 : beto p * dt p / (c1 * mixed p) = be / mixed p) by (unfold be; field; lra).
  assert (E2 : foan p / foas p * beto p * dt p / (c1 * mixed p) = foan p / foas p * be / mixed p) by (unfold be; field; lra).
  assert (E3 : dt p * beto p / (c1 * 100) = be / 100) by (unfold be; field; lra).
  rewrite E1, E2, E3.
  assert (E4 : foan p / foas p * (be / 100) = foan p / foas p * be / 100) by (field; lra). rewrite E4.
  assert (Hfb : 0 <= foan p / foas p * be) by (apply Rmult_le_pos; lra).
  assert (Hfb' : 0 <= foan p / foas p * beto p) by (apply Rmult_le_pos; lra).
  assert (N1 : 0 <= foas p * ebbeta p / ID) by (apply Rmult_le_pos; [apply Rmult_le_pos|]; lra).
  assert (N2 : 0 <= foan p * ebbeta p / ID) by (apply Rmult_le_pos; [apply Rmult_le_pos|]; lra).
  assert (N3 : 0 <= gs / ID) by (apply Rmult_le_pos; lra).
  assert (N4 : 0 <= gn / ID) by (apply Rmult_le_pos; lra).
  assert (N5 : 0 <= ebbeta p / rlamdo p / ID) by (apply Rmult_le_pos; lra).
  assert (N6 : 0 <= wcfac_of p t1n * cpi p / 100) by (apply Rmult_le_pos; [apply Rmult_le_pos|]; lra).
  assert (N7 : 0 <= wcfac_of p t1s * cpi p / 100) by (apply Rmult_le_pos; [apply Rmult_le_pos|]; lra).
  repeat split; try lra; try (apply Rmult_le_pos; lra).
Qed.

Lemma rhs_n_mono tn ts tn' ts' a b a' b' : Forall2 Rle tn tn' -> Forall2 Rle ts ts' -> a <= a' -> b <= b' ->
  Forall2 Rle (rhs_n p w1 w2 tn ts a b) (rhs_n p w1 w2 tn' ts' a' b').
Proof.
  intros H1 H2 H3 H4. destruct coefs_nonneg as (C1 & C2 & C3 & C4 & C5 & C6 & C7 & C8 & C9 & C10 & C11 & C12 & C13 & C14).
  unfold rhs_n. apply Forall2_tab. intros i Hi. rnum.
  pose proof (Forall2_nth _ _ 0 H1). pose proof (Forall2_nth _ _ 0 H2).
  pose proof (Forall2_nth _ _ i H1). pose proof (Forall2_nth _ _ i H2).
  pose proof (Forall2_nth _ _ (lm p - 1) H1). pose proof (Forall2_nth _ _ (lm p - 1) H2).
  destruct (Nat.eqb_spec i 0) as [->|Hi0].
  - repeat apply Rplus_le_compat; apply Rmult_le_compat_l; assumption.
  - destruct (Nat.ltb i (lm p - 1)).
    + destruct i as [|i]; [contradiction|]. cbn [dz]. pose proof c1_pos.
      replace (beto p * dt p / (c1 * nofZ 100)) with (be / 100) by (unfold be; rnum; field; lra).
      destruct be_deep as [Hd _]. pose proof be_nonneg. set (k := be / 100) in *. assert (0 <= k) by (unfold k; lra).
      assert (0 <= (1 - k) * (nth (S i) tn' 0 - nth (S i) tn 0)) by (apply Rmult_le_pos; lra).
      assert (0 <= k * (nth (S i) ts' 0 - nth (S i) ts 0)) by (apply Rmult_le_pos; lra).
      lra.
    + repeat apply Rplus_le_compat; apply Rmult_le_compat_l; assumption.
Qed.
Lemma rhs_s_mono tn ts tn' ts' a b a' b' : Forall2 Rle tn tn' -> Forall2 Rle ts ts' -> a <= a' -> b <= b' ->
  Forall2 Rle (rhs_s p w1 w2 tn ts a b) (rhs_s p w1 w2 tn' ts' a' b').
Proof.
  intros H1 H2 H3 H4. destruct coefs_nonneg as (C1 & C2 & C3 & C4 & C5 & C6 & C7 & C8 & C9 & C10 & C11 & C12 & C13 & C14).
  unfold rhs_s. apply Forall2_tab. intros i Hi. rnum.
  pose proof (Forall2_nth _ _ 0 H1). pose proof (Forall2_nth _ _ 0 H2).
  pose proof (Forall2_nth _ _ i H1). pose proof (Forall2_nth _ _ i H2).
  pose proof (Forall2_nth _ _ (lm p - 1) H1). pose proof (Forall2_nth _ _ (lm p - 1) H2).
  destruct (Nat.eqb_spec i 0) as [->|Hi0].
  - repeat apply Rplus_le_compat; apply Rmult_le_compat_l; assumption.
  - destruct (Nat.ltb i (lm p - 1)).
    + destruct i as [|i]; [contradiction|]. cbn [dz]. pose proof c1_pos. pose proof (ad_foas _ Ha).
      unfold fnso. rnum.
      replace (foan p / foas p * beto p * dt p / (c1 * 100)) with (foan p / foas p * be / 100) by (unfold be; field; lra).
      destruct be_deep as [_ Hd]. pose proof be_nonneg. pose proof fnso_pos.
      assert (0 <= foan p / foas p * be) by (apply Rmult_le_pos; lra).
      set (k := foan p / foas p * be / 100) in *. assert (0 <= k) by (unfold k; lra).
      assert (0 <= (1 - k) * (nth (S i) ts' 0 - nth (S i) ts 0)) by (apply Rmult_le_pos; lra).
      assert (0 <= k * (nth (S i) tn' 0 - nth (S i) tn 0)) by (apply Rmult_le_pos; lra).
      lra.
    + repeat apply Rplus_le_compat; apply Rmult_le_compat_l; assumption.
Qed.
End R.

(** one sub-step: two runs with the same coefficients *)
Section S2.
Variables s s' : ud_state R.
Hypothesis Href : refreshed p s.
Hypothesis Hrl : 0 <= u_rlamda s.
Hypothesis Egn : u_gamn s' = u_gamn s.
Hypothesis Egs : u_gams s' = u_gams s.
Hypothesis Ef : u_fnx s' = u_fnx s.
Hypothesis Efs : u_fsx s' = u_fsx s.
Variables (fn fs fn' fs' : R) (vn vs vn' vs' : list R).

Lemma step_mono x x' im :
  Forall2 Rle (x_tn x) (x_tn x') -> Forall2 Rle (x_ts x) (x_ts x') ->
  wcfac_of p (x_t1n x') = wcfac_of p (x_t1n x) -> wcfac_of p (x_t1s x') = wcfac_of p (x_t1s x) ->
  0 <= wcfac_of p (x_t1n x) <= W p / INR (ldtime p) -> 0 <= wcfac_of p (x_t1s x) <= W p / INR (ldtime p) ->
  sub_dqn p s fn vn im <= sub_dqn p s' fn' vn' im -> sub_dqs p s fs vn vs im <= sub_dqs p s' fs' vn' vs' im ->
  Forall2 Rle (new_tn p s fn fs vn vs x im) (new_tn p s' fn' fs' vn' vs' x' im) /\
  Forall2 Rle (new_ts p s fn fs vn vs x im) (new_ts p s' fn' fs' vn' vs' x' im).
Proof.
  intros H1 H2 E1 E2 W1 W2 H3 H4.
  pose proof (gn_pos p s Href Ha Hrl) as G1. pose proof (gs_pos p s Href Ha Hrl) as G2. pose proof (det_ok p s Href Ha Hrl) as G3.
  pose proof (ad_lm _ Ha) as A1. pose proof (ad_mixed _ Ha) as A3. pose proof (rk_nonneg p (ad_ld _ Ha) (ad_akapa _ Ha)) as Hrk.
  pose proof (ad_eff _ Ha) as A8. pose proof (st_wmix _ Hst) as Hwm.
  assert (E3 : setup_ebud2 p (u_gamn s') (u_gams s') (x_t1n x') (x_t1s x') = setup_ebud2 p (u_gamn s) (u_gams s) (x_t1n x) (x_t1s x)).
  { unfold setup_ebud2. rewrite Egn, Egs, E1, E2. reflexivity. }
  unfold new_tn, new_ts. rewrite E3, Egn, Egs, E1, E2. split.
  - apply band_mono.
    + apply sys_mrow; try assumption; [apply rhs_n_length|apply gam_n_ok; assumption|apply W1|apply W_diff; exact W1|lra].
    + apply rhs_n_mono; assumption.
  - apply band_mono.
    + apply sys_mrow; try assumption; [apply rhs_s_length|apply gam_s_ok; assumption|apply W2|apply W_diff; exact W2|lra].
    + apply rhs_s_mono; assumption.
Qed.

Lemma air_mono fo1 fx1 a t1 fo2 fx2 b t2 a' t1' b' t2' : 0 < fo1 -> 0 < fo2 -> 0 < fx2 ->
  0 < fx1 - ebbeta p * ebbeta p / fx2 -> a <= a' -> b <= b' -> t1 <= t1' -> t2 <= t2' ->
  air p fo1 fx1 a t1 fo2 fx2 b t2 <= air p fo1 fx1 a' t1' fo2 fx2 b' t2'.
Proof.
  intros F1 F2 X2 D H1 H2 H3 H4. unfold air. rnum. pose proof (ad_rlamdo _ Ha). pose proof (ad_ebbeta _ Ha).
  assert (Hi : 0 < / fx2) by (apply Rinv_0_lt_compat; exact X2).
  unfold Rdiv at 1 4. apply Rmult_le_compat_r; [left; apply Rinv_0_lt_compat; exact D|].
  assert (0 < fo1 * rlamdo p) by (apply Rmult_lt_0_compat; assumption).
  assert (0 < fo2 * rlamdo p) by (apply Rmult_lt_0_compat; assumption).
  repeat apply Rplus_le_compat; try assumption.
  - apply Rmult_le_compat_l; lra.
  - unfold Rdiv. apply Rmult_le_compat_r; [lra|]. apply Rmult_le_compat_l; [assumption|].
    apply Rplus_le_compat; [assumption|]. apply Rmult_le_compat_l; lra.
Qed.
Lemma fx_ok : 0 < u_fnx s /\ 0 < u_fsx s /\ 0 < u_fnx s - ebbeta p * ebbeta p / u_fsx s /\ 0 < u_fsx s - ebbeta p * ebbeta p / u_fnx s.
Proof.
  pose proof (ad_rlamdo _ Ha) as Hr. pose proof (gn_pos p s Href Ha Hrl) as G1. pose proof (gs_pos p s Href Ha Hrl) as G2.
  pose proof (det_ok p s Href Ha Hrl) as G3.
  rewrite (fnx_eq p s Href Ha), (fsx_eq p s Href Ha).
  set (b := ebbeta p / rlamdo p) in *. assert (Eb : ebbeta p = rlamdo p * b) by (unfold b; field; lra). rewrite Eb.
  set (gn := u_gamn s) in *. set (gs := u_gams s) in *.
  split; [nra|]. split; [nra|]. split.
  - replace (rlamdo p * gn - rlamdo p * b * (rlamdo p * b) / (rlamdo p * gs)) with (rlamdo p * (gs * gn - b * b) * / gs) by (field; lra).
    apply Rmult_lt_0_compat; [nra|apply Rinv_0_lt_compat; exact G2].
  - replace (rlamdo p * gs - rlamdo p * b * (rlamdo p * b) / (rlamdo p * gn)) with (rlamdo p * (gs * gn - b * b) * / gn) by (field; lra).
    apply Rmult_lt_0_compat; [nra|apply Rinv_0_lt_compat; exact G1].
Qed.
End S2.
End Mono.
