(** * P_CarbonMisc: initial bracket (C29), ocean memory (C34), box model (C35), airborne fraction (C36),
      leftover state (C76) *)
From Coq Require Import Reals ZArith List Bool Lra Lia Psatz.
From Verif Require Import Num M_Carbon M_CarbonBack M_CarbonBox Spec_UDM Spec_Carbon P_Carbon P_Carbon2 P_Carbon3 P_Carbon4.
Import ListNotations.
Open Scope R_scope.

Lemma bracket now zero w : let '(mx, mn) := initial_max_min_guess now zero w in
  1 <= mx - mn /\ mn <= (now - zero) * pgc <= mx.
Proof.
  unfold initial_max_min_guess. cbv zeta. rewrite pgc_eq. rnum.
  generalize ((now - zero) * pgc). intro c.
  repeat match goal with |- context [Rlt_dec ?a ?b] => destruct (Rlt_dec a b) end; lra.
Qed.

Lemma memory_eq rs s it n : (it < n)%nat -> ocean_memory rs s it = sumn (fun j => ocean_weight rs it j * nth j s 0) n.
Proof.
  intro H. unfold ocean_memory. replace n with (it - 1 + (n - (it - 1)))%nat by lia. rewrite sumn_add_range.
  f_equal.
  - apply sumn_ext. intros j Hj. unfold ocean_weight. replace (Nat.eqb it j) with false by (symmetry; apply Nat.eqb_neq; lia).
    replace (Nat.ltb (j + 1) it) with true by (symmetry; apply Nat.ltb_lt; lia). ring.
  - assert (G : forall a m, (it - a < m)%nat -> (it - 1 <= a)%nat -> (a <= it)%nat ->
      nth it s 0 / 2 = sumn (fun i => ocean_weight rs it (a + i) * nth (a + i) s 0) m).
    { clear n H. intros a m Hm Ha Hb. induction m as [|m IH]; [lia|]. cbn [sumn].
      assert (W : forall j, (it - 1 <= j)%nat -> ocean_weight rs it j = if Nat.eqb it j then 1 / 2 else 0).
      { intros j Hj. unfold ocean_weight. destruct (Nat.eqb it j); [reflexivity|].
        replace (Nat.ltb (j + 1) it) with false by (symmetry; apply Nat.ltb_ge; lia). reflexivity. }
      rewrite (W (a + m)%nat) by lia. destruct (Nat.eq_dec m (it - a)) as [E|NE].
      - replace (Nat.eqb it (a + m)) with true by (symmetry; apply Nat.eqb_eq; lia). rewrite sumn_zero.
        + replace (a + m)%nat with it by lia. lra.
        + intros j Hj. rewrite W by lia. replace (Nat.eqb it (a + j)) with false by (symmetry; apply Nat.eqb_neq; lia). ring.
      - replace (Nat.eqb it (a + m)) with false by (symmetry; apply Nat.eqb_neq; lia). rewrite <- IH by lia. ring. }
    apply G; lia.
Qed.
Lemma z_eq p s ml it : (it < length s)%nat -> (it <= length (r_s p))%nat ->
  z_co2 p s ml it = PPMKG_TO_UMOL_PER_VOL * GE_COEFF * (1 / INR (idtm p)) / ml * sumn (fun j => ocean_weight (r_s p) it j * nth j s 0) (length s).
Proof.
  intros H1 H2. rewrite <- memory_eq by exact H1. unfold z_co2. rewrite sumz_eq by lia. rewrite half_eq. unfold ocean_memory. rewrite <- dt_inr. rnum.
  unfold Rdiv. ring.
Qed.

Lemma box_year_total p s em t : box_total (fst (box_year p s em t)) = box_total s + em.
Proof. unfold box_year, box_total. cbv zeta. cbn [fst atm veg soil omix odeep]. rewrite pgc_eq. rnum. field. unfold pgc. lra. Qed.
Lemma box_run_total p ins : forall s, box_total (fst (box_run p s ins)) = box_total s + total (map fst ins).
Proof.
  induction ins as [|[em t] ins IH]; intro s; cbn [box_run map total fst]; [lra|].
  pose proof (box_year_total p s em t) as Y. destruct (box_year p s em t) as [s1 c]. specialize (IH s1). destruct (box_run p s1 ins) as [s2 cs]. cbn [fst] in *.
  rewrite IH, Y. lra.
Qed.
Lemma box_steady_year p : b_veg_frac p = 1 / 10 -> b_soil_rate p = 1 / 50 -> box_year p box_init 0 0 = (box_init, 278).
Proof.
  intros H1 H2. unfold box_year. cbv zeta. unfold calculate_npp, calculate_ocean_uptake. cbn [atm veg soil omix odeep box_init]. rewrite H1, H2.
  rewrite pgc_eq. rnum. replace (278 / 278) with 1 by field. rewrite ln_1.
  replace (60 + b_beta_f p * 0 - b_land_sens p * 0) with 60 by ring. destruct (Rlt_dec 0 60) as [_|]; [|lra].
  replace (278 + (0 - b_sol_base p * (1 + b_sol_coeff p * 0) * (278 - 278) + 3000 * (1 / 50) - 60) / pgc * 1) with 278 by (unfold pgc; field).
  f_equal. unfold box_init. rnum. f_equal; field.
Qed.
Lemma box_steady p n : b_veg_frac p = 1 / 10 -> b_soil_rate p = 1 / 50 -> box_run p box_init (repeat (0, 0) n) = (box_init, repeat 278 n).
Proof. intros H1 H2. induction n as [|n IH]; [reflexivity|]. cbn [repeat box_run]. rewrite (box_steady_year p H1 H2), IH. reflexivity. Qed.
Lemma box_indep p q s ins : box_same p q -> box_run p s ins = box_run q s ins.
Proof.
  intros (H1 & H2 & H3 & H4 & H5 & H6 & H7). revert s. induction ins as [|[em t] ins IH]; intro s; [reflexivity|]. cbn [box_run].
  replace (box_year q s em t) with (box_year p s em t).
  - destruct (box_year p s em t) as [s1 c]. rewrite IH. reflexivity.
  - unfold box_year, calculate_npp, calculate_ocean_uptake. rewrite H1, H2, H3, H4, H5, H6, H7. reflexivity.
Qed.

Lemma cumsum_from_nth l : forall acc t, (t < length l)%nat -> nth t (cumsum_from acc l) 0 = acc + total (firstn (S t) l).
Proof.
  induction l as [|x l IH]; intros acc t H; cbn [length] in H; [lia|]. cbn [cumsum_from]. destruct t as [|t]; cbn [nth].
  - rnum. cbn [firstn total]. lra.
  - rewrite IH by lia. change (firstn (S (S t)) (x :: l)) with (x :: firstn (S t) l). cbn [total]. rnum. lra.
Qed.
Lemma cumsum_nth l t : (t < length l)%nat -> nth t (cumsum l) 0 = total (firstn (S t) l).
Proof.
  destruct l as [|x l]; intro H; cbn [length] in H; [lia|]. cbn [cumsum]. destruct t as [|t]; cbn [nth].
  - cbn [firstn total]. lra.
  - rewrite cumsum_from_nth by lia. reflexivity.
Qed.
Lemma cumsum_len (l : list R) : length (cumsum l) = length l.
Proof.
  assert (G : forall l acc, length (cumsum_from (acc : R) l) = length l) by (clear; induction l as [|x l IH]; intro acc; cbn [cumsum_from length]; [reflexivity|]; rewrite IH; reflexivity).
  destruct l; [reflexivity|]. cbn [cumsum length]. rewrite G. reflexivity.
Qed.
Lemma exists_zero (l : list R) : existsb (fun c => neqb c (nofZ 0)) l = true <-> exists t, (t < length l)%nat /\ nth t l 0 = 0.
Proof.
  rewrite existsb_exists. split.
  - intros (x & Hin & Hx). rnum. destruct (Req_EM_T x 0) as [E|]; [|discriminate]. destruct (In_nth l x 0 Hin) as (t & Ht & Hn). exists t. subst x. auto.
  - intros (t & Ht & Hn). exists 0. split; [rewrite <- Hn; apply nth_In, Ht|]. rnum. destruct (Req_EM_T 0 0); [reflexivity|congruence].
Qed.
Lemma airborne_none em conc pre : airborne_fraction em conc pre = None <-> exists t, (t < length em)%nat /\ total (firstn (S t) em) = 0.
Proof.
  unfold airborne_fraction. cbv zeta. pose proof (exists_zero (cumsum em)) as E. rewrite cumsum_len in E.
  assert (E' : existsb (fun c => neqb c (nofZ 0)) (cumsum em) = true <-> exists t, (t < length em)%nat /\ total (firstn (S t) em) = 0).
  { rewrite E. split; intros (t & H1 & H2); exists t; split; auto; [rewrite <- cumsum_nth|rewrite cumsum_nth]; auto. }
  rewrite <- E'. destruct (existsb _ _); split; intro H; try reflexivity; discriminate.
Qed.
Lemma airborne_some em conc pre af : airborne_fraction em conc pre = Some af -> length conc = length em ->
  length af = length em /\ forall t, (t < length em)%nat -> nth t af 0 * total (firstn (S t) em) = pgc * (nth t conc 0 - pre).
Proof.
  intros H Hl. assert (Hn : ~ exists t, (t < length em)%nat /\ total (firstn (S t) em) = 0) by (rewrite <- airborne_none with (conc := conc) (pre := pre); congruence).
  unfold airborne_fraction in H. cbv zeta in H. destruct (existsb _ _); [discriminate|]. apply (f_equal (fun o => match o with Some x => x | None => [] end)) in H. subst af.
  split; [rewrite map2_length, cumsum_len; lia|]. intros t Ht. rewrite (map2_nth _ conc (cumsum em) t 0 0 0) by (rewrite ?cumsum_len; lia).
  rewrite cumsum_nth by exact Ht. assert (total (firstn (S t) em) <> 0) by (intro E; apply Hn; exists t; auto).
  rewrite pgc_eq. rnum. field. assumption.
Qed.

(** C76: the first step does not start from a clean ocean pressure *)
Lemma leftover p fnpp h : nth 0 (h_d h) 0 = 0 -> h_x (cc_step p fnpp 0 h 0) = preind p + h_y h / 2.
Proof.
  intro Hd.
  assert (G : forall s, nth 0 s 0 = 0 -> forall sol ml, sol * pco2_ocean (z_co2 p s ml 0) = 0).
  { intros s Hs sol ml. unfold z_co2. cbn [sumz Nat.eqb]. change (@nofZ R RNum 0) with 0. rewrite Hs.
    replace (nmul _ _) with (0 : R) by (unfold sumz; cbn [Nat.eqb]; rnum; unfold Rdiv; ring). rewrite pco2_zero. ring. }
  unfold cc_step. cbn [Nat.eqb]. cbv zeta. cbn [h_x]. unfold partial_pressure. cbn [h_sol h_s h_ml].
  change (@nofZ R RNum 0) with 0. rewrite Hd.
  set (v := nmul (cc1 p) _). assert (Hv : v = 0) by (unfold v, sumf; cbn [Nat.eqb]; rnum; unfold Rdiv; ring).
  assert (Hs : nth 0 (upd (h_s h) 0 v) 0 = 0) by (destruct (h_s h); [reflexivity|exact Hv]).
  rewrite Hs. change (nmul (h_sol h) (pco2_ocean (z_co2 p (upd (h_s h) 0 v) (h_ml h) 0))) with (h_sol h * pco2_ocean (z_co2 p (upd (h_s h) 0 v) (h_ml h) 0)).
  rewrite (G _ Hs). rnum. rdec. lra.
Qed.
