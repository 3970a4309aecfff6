(** * P_UDM6: yearly heat balance, rest state, heat content to 700 m *)
From Coq Require Import Reals ZArith List Lra Lia Bool.
From Verif Require Import Num M_TwoLayer M_UDM Spec_TwoLayer Spec_TwoLayerRuns Spec_UDM Spec_UDMRuns P_TwoLayer P_UDM P_UDM2 P_UDM3 P_UDM4 P_UDM5.
Import ListNotations.
Open Scope R_scope.

Lemma c1_eq : c1 = c_solver :> R.
Proof. unfold c1, SEC_DAY, c_solver. rnum. lra. Qed.

(** ** the year *)
Lemma heat_budget_year p s fnh fsh vn vs m : refreshed p s -> admissible p -> 0 <= u_rlamda s ->
  efficacy p = 1 -> ebbeta p = 0 -> length vs = length vn -> (length vn <> 0)%nat -> ldtime p = (m * length vn)%nat ->
  (forall k, (k < ldtime p)%nat -> small_upwell p (x_t1n (year_acc p s fnh fsh vn vs k)) /\
                                   small_upwell p (x_t1s (year_acc p s fnh fsh vn vs k))) ->
  let o := snd (ud_energy_budget p s fnh fsh vn vs) in
  let L := INR (ldtime p) in
  let mean_forcing f prev v := ((L + 1) * f + (L - 1) * prev) / (2 * L) + rmean v in
  y_ohctot o - ohctot p (u_tn s) (u_ts s) =
  ohc_unit * (year_s / c_solver) *
    (mean_forcing fnh (u_pfn s) vn + mean_forcing fsh (u_pfs s) vs - 2 * u_rlamda s * y_air o).
Proof.
  intros Href Ha Hrl He Hb Hvl Hv Hld Hw. cbn zeta.
  pose proof (heat_year p s fnh fsh vn vs Href Ha Hrl (ldtime p) He Hb Hw) as H.
  pose proof (ld_pos p (ad_ld _ Ha)) as HL.
  unfold ud_energy_budget. cbn [snd y_ohctot y_air]. rewrite !ohctot_ocean.
  set (x := year_acc p s fnh fsh vn vs (ldtime p)) in *.
  rewrite <- Rmult_minus_distr_l, H. rewrite dt_eq, c1_eq.
  unfold sub_dqn, sub_dqs, dq. rnum. rewrite !sumn_add.
  rewrite !ramp_sum by apply (ad_ld _ Ha).
  assert (V1 : sumn (fun k => nth (k mod length vn) vn 0) (ldtime p) = INR m * rsum vn)
    by (rewrite Hld; apply volc_sum; [reflexivity|exact Hv]).
  assert (V2 : sumn (fun k => nth (k mod length vn) vs 0) (ldtime p) = INR m * rsum vs)
    by (rewrite Hld; apply volc_sum; [exact Hvl|exact Hv]).
  rewrite V1, V2. unfold rmean.
  assert (Hm : INR (ldtime p) = INR m * INR (length vn)) by (rewrite Hld; apply mult_INR).
  assert (Hv' : INR (length vn) <> 0) by (apply not_0_INR; exact Hv).
  assert (Hm' : INR m <> 0) by (intro E; rewrite E in Hm; lra).
  replace (INR m * rsum vn) with (INR (ldtime p) * (rsum vn / INR (length vn))) by (rewrite Hm; field; exact Hv').
  replace (INR m * rsum vs) with (INR (ldtime p) * (rsum vs / INR (length vs))) by (rewrite Hm, Hvl; field; exact Hv').
  unfold c_solver. assert (INR (length vs) <> 0) by (rewrite Hvl; exact Hv'). field. repeat split; (assumption || lra).
Qed.

(** ** the rest state *)
Lemma thomas_zero rows : forall cp, Forall (fun r => r_d r = 0) rows -> Forall (eq 0) (thomas cp 0 rows).
Proof.
  induction rows as [|r rest IH]; intros cp H; [constructor|]. inversion H as [|? ? H1 H2]; subst.
  rewrite thomas_cons. rewrite H1.
  replace ((0 - r_l r * 0) / (r_b r - r_l r * cp)) with 0 by (unfold Rdiv; ring).
  specialize (IH (r_u r / (r_b r - r_l r * cp)) H2). constructor; [|exact IH].
  destruct (thomas _ 0 rest) as [|y ys]; cbn [hd]; [ring|]. inversion IH; subst. ring.
Qed.
Lemma Forall0_nth (l : list R) i : Forall (eq 0) l -> nth i l 0 = 0.
Proof.
  intro H. revert i. induction H as [|x l Hx Hl IH]; intros [|i]; cbn [nth]; try reflexivity; [symmetry; exact Hx|apply IH].
Qed.
Lemma nth_Forall0 (l : list R) : (forall i, (i < length l)%nat -> nth i l 0 = 0) -> Forall (eq 0) l.
Proof.
  induction l as [|x l IH]; intro H; constructor.
  - symmetry. apply (H 0%nat). cbn; lia.
  - apply IH. intros i Hi. apply (H (S i)). cbn; lia.
Qed.
Lemma band_zero a b c d : Forall (eq 0) d -> Forall (eq 0) (band a b c d).
Proof.
  intro H. unfold band. rnum. apply thomas_zero. apply Forall_tab. intros i Hi. cbn [r_d].
  apply Forall0_nth. exact H.
Qed.
Lemma rhs_n_zero p w1 w2 tn ts : Forall (eq 0) tn -> Forall (eq 0) ts -> Forall (eq 0) (rhs_n (A:=R) p w1 w2 tn ts 0 0).
Proof.
  intros H1 H2. apply Forall_tab. intros i Hi. rnum. rewrite !(Forall0_nth tn), !(Forall0_nth ts) by assumption.
  destruct (Nat.eqb i 0); [ring|]. destruct (Nat.ltb i (lm p - 1)); ring.
Qed.
Lemma rhs_s_zero p w1 w2 tn ts : Forall (eq 0) tn -> Forall (eq 0) ts -> Forall (eq 0) (rhs_s (A:=R) p w1 w2 tn ts 0 0).
Proof.
  intros H1 H2. apply Forall_tab. intros i Hi. rnum. rewrite !(Forall0_nth tn), !(Forall0_nth ts) by assumption.
  destruct (Nat.eqb i 0); [ring|]. destruct (Nat.ltb i (lm p - 1)); ring.
Qed.
Definition acc_zero (x : acc R) : Prop :=
  Forall (eq 0) (x_tn x) /\ Forall (eq 0) (x_ts x) /\ x_tempn x = 0 /\ x_temps x = 0 /\ x_an x = 0 /\ x_as x = 0 /\
  x_sn x = 0 /\ x_ss x = 0.
Lemma air_zero (p : ud_pam R) a b c d t u : t = 0 -> u = 0 -> air p a b 0 t c d 0 u = 0.
Proof. intros -> ->. unfold air. rnum. unfold Rdiv. ring. Qed.
Lemma dq_zero (p : ud_pam R) im v k : Forall (eq 0) v -> dq p im 0 0 v k = 0.
Proof. intro H. unfold dq, ramp. rnum. rewrite Forall0_nth by exact H. ring. Qed.
Lemma substep_zero p s vn vs x im : u_pfn s = 0 -> u_pfs s = 0 -> Forall (eq 0) vn -> Forall (eq 0) vs ->
  acc_zero x -> acc_zero (substep p s 0 0 vn vs x im).
Proof.
  intros H1 H2 Hn Hs (Z1 & Z2 & Z3 & Z4 & Z5 & Z6 & Z7 & Z8). unfold substep.
  rewrite H1, H2. rewrite !dq_zero by assumption.
  set (w2 := if neqb _ _ then _ else _).
  assert (B1 := band_zero (acoefn w2) (bcoefn w2) (ccoefn w2) _ (rhs_n_zero p (u_v1 s) w2 _ _ Z1 Z2)).
  assert (B2 := band_zero (acoefs w2) (bcoefs w2) (ccoefs w2) _ (rhs_s_zero p (u_v1 s) w2 _ _ Z1 Z2)).
  set (tn := band (acoefn w2) _ _ _) in *. set (ts := band (acoefs w2) _ _ _) in *.
  assert (T1 : nth 0 tn (nofZ 0) = 0) by (apply Forall0_nth; exact B1).
  assert (T2 : nth 0 ts (nofZ 0) = 0) by (apply Forall0_nth; exact B2).
  rewrite T1, T2. rewrite !air_zero by reflexivity.
  unfold acc_zero. cbn [x_tn x_ts x_tempn x_temps x_an x_as x_sn x_ss]. rnum. rewrite Z3, Z4, Z5, Z6, Z7, Z8.
  unfold Rdiv. repeat split; try assumption; ring.
Qed.
Definition state_zero (s : ud_state R) : Prop :=
  u_pfn s = 0 /\ u_pfs s = 0 /\ Forall (eq 0) (u_tn s) /\ Forall (eq 0) (u_ts s).
Lemma year_acc_zero p s vn vs n : state_zero s -> Forall (eq 0) vn -> Forall (eq 0) vs ->
  acc_zero (year_acc p s 0 0 vn vs n).
Proof.
  intros (Z1 & Z2 & Z3 & Z4) Hn Hs. induction n as [|n IH].
  - unfold acc_zero. cbn. repeat split; assumption.
  - rewrite year_acc_S. apply substep_zero; assumption.
Qed.
Lemma Forall0_rsum l : Forall (eq 0) l -> rsum l = 0.
Proof. induction 1 as [|x l Hx Hl IH]; [reflexivity|]. cbn [rsum fold_right]. fold (rsum l). rewrite IH, <- Hx. ring. Qed.
Lemma Forall0_nsum l : Forall (eq 0) l -> nsum l = 0.
Proof. intro H. rewrite nsum_rsum. apply Forall0_rsum. exact H. Qed.
Lemma hav_zero p tn ts : Forall (eq 0) tn -> Forall (eq 0) ts -> Forall (eq 0) (havtemp p tn ts).
Proof.
  intros H1 H2. rewrite hav_eq. apply Forall_tab. intros i Hi. rewrite !Forall0_nth by assumption. ring.
Qed.
Lemma Forall0_nmean v : Forall (eq 0) v -> nmean v = 0.
Proof. intro H. unfold nmean. rewrite Forall0_nsum by exact H. rnum. unfold Rdiv. ring. Qed.
Lemma Forall_firstn {B} (P : B -> Prop) n l : Forall P l -> Forall P (firstn n l).
Proof. intro H. revert n. induction H; intros [|n]; cbn [firstn]; constructor; auto. Qed.
Lemma anom_zero p tn ts tn0 ts0 : Forall (eq 0) tn -> Forall (eq 0) ts -> Forall (eq 0) tn0 -> Forall (eq 0) ts0 ->
  anomalous_radiation p tn ts tn0 ts0 = 0.
Proof.
  intros H1 H2 H3 H4. unfold anomalous_radiation. rewrite Forall0_nsum; [rnum; unfold Rdiv; ring|].
  assert (H : Forall (eq 0) (tab (lm p) (fun i => nmul (nmul (nmul WATER_HEAT_CAPACITY WATER_DENSITY) (dz p i))
     (nadd (nmul (nsub (nth i tn (nofZ 0)) (nth i tn0 (nofZ 0))) (foan p)) (nmul (nsub (nth i ts (nofZ 0)) (nth i ts0 (nofZ 0))) (foas p)))))).
  { apply Forall_tab. intros i Hi. rnum. rewrite !Forall0_nth by assumption. ring. }
  destruct (tab _ _); cbn [tl]; [constructor|]. inversion H; assumption.
Qed.
Lemma ohc700_zero p tn ts : Forall (eq 0) tn -> Forall (eq 0) ts -> ohc700 p tn ts = None \/ ohc700 p tn ts = Some 0.
Proof.
  intros H1 H2. unfold ohc700. pose proof (hav_zero p tn ts H1 H2) as H.
  destruct (pyget _ _) as [h|] eqn:E; [right|left; reflexivity].
  assert (Hh : h = 0).
  { unfold pyget in E. rewrite Forall_forall in H.
    destruct (0 <=? _)%Z; [symmetry; apply H; eapply nth_error_In; exact E|].
    destruct (0 <=? _)%Z; [symmetry; apply H; eapply nth_error_In; exact E|discriminate]. }
  rewrite Hh. unfold pyupto. rewrite Forall0_nsum; [rnum; f_equal; ring|].
  destruct (0 <=? _)%Z; apply Forall_firstn; exact H.
Qed.
Lemma year_zero p s i : state_zero s -> zero_in i -> state_zero (fst (ud_year p s i)) /\ all_zero (snd (ud_year p s i)).
Proof.
  intros Hs (F1 & F2 & F3 & F4 & _).
  assert (Hs' : state_zero (ud_set_feedback p s (i_w i))).
  { unfold ud_set_feedback. destruct (neqb _ _); exact Hs. }
  unfold ud_year. rewrite F1, F2. set (s1 := ud_set_feedback p s (i_w i)) in *.
  pose proof (year_acc_zero p s1 (i_vn i) (i_vs i) (ldtime p) Hs' F3 F4) as (Z1 & Z2 & Z3 & Z4 & Z5 & Z6 & Z7 & Z8).
  destruct Hs' as (S1 & S2 & S3 & S4).
  unfold ud_energy_budget. cbn [fst snd]. set (x := year_acc _ _ _ _ _ _ _) in *. split.
  - unfold state_zero. cbn [u_pfn u_pfs u_tn u_ts]. repeat split; assumption.
  - unfold all_zero. cbn [y_dtemp y_nh y_sh y_tn y_ts y_air y_air_n y_air_s y_sea y_sea_n y_sea_s y_ribn y_ribs y_rib y_ohc700 y_ohctot y_anom].
    rewrite anom_zero by assumption. rewrite !Forall0_nmean by assumption.
    rewrite Z3, Z4, Z5, Z6, Z7, Z8. rnum.
    assert (Ht : ohctot p (x_tn x) (x_ts x) = 0) by (apply Forall0_nsum, hav_zero; assumption).
    repeat split; try assumption; try (apply ohc700_zero; assumption); unfold Rdiv; ring.
Qed.
Lemma run_zero p ins : forall s, state_zero s -> Forall zero_in ins -> Forall all_zero (ud_run p s ins).
Proof.
  induction ins as [|i r IH]; intros s Hs H; [constructor|]. inversion H as [|? ? H1 H2]; subst.
  cbn [ud_run]. destruct (year_zero p s i Hs H1) as [E1 E2]. destruct (ud_year p s i) as [s' o].
  constructor; [exact E2|apply IH; assumption].
Qed.
Lemma init_zero p : state_zero (ud_init p).
Proof. repeat split; apply Forall_tab; reflexivity. Qed.

(** ** 700 m *)
Lemma Int_part_bounds r k : IZR k <= r < IZR k + 1 -> Int_part r = k.
Proof.
  intro H. unfold Int_part. assert (E : (k + 1)%Z = up r); [|rewrite <- E; lia].
  apply tech_up; rewrite plus_IZR; lra.
Qed.
Lemma Int_part_spec r : IZR (Int_part r) <= r < IZR (Int_part r) + 1.
Proof. pose proof (base_Int_part r). lra. Qed.

(** layers below the mixed layer, all 100 m thick, down to depth 100 (m + f), 0 <= f <= 1 *)
Lemma column_heat_tail f : 0 <= f <= 1 -> forall m n (g : nat -> R), (m < n)%nat ->
  column_heat (100 * (INR m + f)) (repeat 100 n) (tab n g) = sumn (fun i => 100 * g i) m + 100 * f * g m.
Proof.
  intros Hf. induction m as [|m IH]; intros n g Hn; destruct n as [|n]; try lia.
  - rewrite tab_S. cbn [repeat column_heat sumn INR].
    replace (column_heat _ (repeat 100 n) _) with 0.
    + rewrite Rmax_right by lra. rewrite Rmin_right by lra. ring.
    + assert (G : forall n z (h : nat -> R), z <= 0 -> column_heat z (repeat 100 n) (tab n h) = 0).
      { clear. induction n as [|n IH]; intros z h Hz; [reflexivity|]. rewrite tab_S. cbn [repeat column_heat].
        rewrite IH by lra. rewrite Rmax_left by lra. rewrite Rmin_right by lra. ring. }
      rewrite G; [reflexivity|lra].
  - rewrite tab_S. cbn [repeat column_heat]. pose proof (pos_INR m).
    rewrite Rmax_right by (rewrite S_INR; lra). rewrite Rmin_left by (rewrite S_INR; lra).
    replace (100 * (INR (S m) + f) - 100) with (100 * (INR m + f)) by (rewrite S_INR; ring).
    rewrite IH by lia.
    replace (sumn (fun i => 100 * g i) (S m)) with (100 * g 0%nat + sumn (fun i => 100 * g (S i)) m); [ring|].
    clear. induction m as [|m IH]; [cbn [sumn]; ring|]. cbn [sumn] in *. rewrite <- Rplus_assoc, IH. ring.
Qed.
Lemma nsum_firstn_tab m n (f : nat -> R) : (m <= n)%nat -> nsum (firstn m (tab n f)) = sumn f m.
Proof.
  intro H. rewrite nsum_rsum, <- rsum_tab. f_equal. clear -H. revert n f H. induction m as [|m IH]; intros n f H.
  - reflexivity.
  - destruct n as [|n]; [lia|]. rewrite !tab_S. cbn [firstn]. f_equal. apply IH. lia.
Qed.
Lemma sumn_shift (f : nat -> R) m : sumn f (S m) = f 0%nat + sumn (fun i => f (S i)) m.
Proof. induction m as [|m IH]; [cbn [sumn]; ring|]. cbn [sumn] in *. rewrite <- Rplus_assoc, <- IH. ring. Qed.

Lemma ohc700_exact p tn ts : 0 < mixed p <= 700 -> (8 <= lm p)%nat ->
  ohc700 p tn ts = Some (ohc_unit * column_heat 700 (layers p) (mean_column p tn ts)).
Proof.
  intros Hm Hl. unfold ohc700. cbn [dz]. rnum. set (q := mixed p / 100).
  pose proof (Int_part_spec q) as Hq. set (k := Int_part q) in *.
  assert (Hk : (0 <= k <= 7)%Z).
  { split.
    - assert (H : IZR (-1) < IZR k) by (assert (0 < q) by (unfold q; lra); cbn; lra). apply lt_IZR in H. lia.
    - apply le_IZR. apply Rle_trans with q; [apply Hq|unfold q; lra]. }
  unfold pyget, pyupto. destruct (Z.leb_spec 0 (7 - k)); [|lia].
  rewrite hav_eq. rewrite nth_error_tab_lt by lia. f_equal. rewrite nsum_firstn_tab by lia.
  set (m := Z.to_nat (7 - k)). set (g := fun i => foan p * nth i tn 0 + foas p * nth i ts 0).
  unfold layers, mean_column. replace (lm p) with (S (lm p - 1)) at 2 by lia. rewrite tab_S. cbn [column_heat].
  fold (g 0%nat). change (fun i => foan p * nth (S i) tn 0 + foas p * nth (S i) ts 0) with (fun i => g (S i)).
  rewrite Rmax_right by lra. rewrite Rmin_left by lra.
  destruct m as [|m'] eqn:Em.
  - assert (k = 7%Z) by lia. assert (Hm7 : mixed p = 700) by (unfold q in Hq; subst k; rewrite H0 in Hq; lra).
    replace (700 - mixed p) with (100 * (INR 0 + 0)) by (rewrite Hm7; cbn [INR]; ring).
    assert (0 < lm p - 1)%nat by lia.
    rewrite (column_heat_tail 0) by (lra || lia). cbn [sumn thick]. unfold q. rewrite H0, Hm7. unfold g. field.
  - assert (Hmk : INR m' = 6 - IZR k).
    { assert (Z.of_nat m' = 6 - k)%Z by lia. rewrite INR_IZR_INZ, H0, minus_IZR. reflexivity. }
    set (f := 1 + IZR k - q).
    replace (700 - mixed p) with (100 * (INR m' + f)) by (rewrite Hmk; unfold f, q; field).
    rewrite (column_heat_tail f) by (unfold f; lra || lia).
    rewrite sumn_shift. cbn [thick].
    rewrite (sumn_ext _ (fun i => ohc_unit * (100 * g (S i)))) by (intros; unfold g; ring).
    rewrite sumn_scal. unfold g. ring.
Qed.

(** 700 < mixed < 800: only part of the mixed layer is counted *)
Lemma ohc700_wrong p tn ts : 700 < mixed p < 800 -> (1 <= lm p)%nat ->
  ohc700 p tn ts = Some (ohc_unit * ((8 - mixed p / 100) * mixed p) * (foan p * nth 0 tn 0 + foas p * nth 0 ts 0))
  /\ (8 - mixed p / 100) * mixed p < 700.
Proof.
  intros Hm Hl. split; [|nra]. unfold ohc700. cbn [dz]. rnum.
  rewrite (Int_part_bounds (mixed p / 100) 7) by lra. unfold pyget, pyupto.
  change (0 <=? 7 - 7)%Z with true. cbn iota. change (Z.to_nat (7 - 7)) with 0%nat. rewrite hav_eq, nth_error_tab_lt by lia.
  f_equal. cbn [firstn nsum fold_left thick]. rnum. ring.
Qed.
(** 800 <= mixed < 900: the whole column but part of the deepest layer is counted *)
Lemma ohc700_bottom p tn ts : 800 <= mixed p < 900 -> (2 <= lm p)%nat ->
  ohc700 p tn ts = Some (ohctot p tn ts - (mixed p / 100 - 8) * (ohc_unit * 100 *
     (foan p * nth (lm p - 1) tn 0 + foas p * nth (lm p - 1) ts 0))).
Proof.
  intros Hm Hl. unfold ohc700. cbn [dz]. rnum.
  rewrite (Int_part_bounds (mixed p / 100) 8) by lra. unfold pyget, pyupto. rewrite hav_eq, tab_length.
  change (0 <=? 7 - 8)%Z with false. cbn iota.
  destruct (Z.leb_spec 0 (Z.of_nat (lm p) + (7 - 8))); [|lia].
  replace (Z.to_nat (Z.of_nat (lm p) + (7 - 8))) with (lm p - 1)%nat by lia.
  rewrite nth_error_tab_lt by lia. rewrite nsum_firstn_tab by lia. f_equal.
  unfold ohctot. rewrite hav_eq, nsum_tab. replace (lm p) with (S (lm p - 1)) at 5 by lia. cbn [sumn].
  destruct (lm p - 1)%nat as [|n] eqn:E; [lia|]. cbn [thick]. ring.
Qed.
