(** * P_TwoLayer: proofs about the two-layer model over the reals *)
From Coq Require Import Reals List Lra Lia.
From Verif Require Import Num M_TwoLayer Spec_TwoLayer Spec_TwoLayerRuns.
Import ListNotations.
Open Scope R_scope.

Lemma nsum_rsum (l : list R) : nsum l = rsum l.
Proof.
  unfold nsum, rsum; rnum. change (IZR 0) with 0.
  assert (G : forall a, fold_left Rplus l a = a + fold_right Rplus 0 l).
  { induction l as [|x l IH]; intros a; simpl; [ring|]. rewrite IH; ring. }
  rewrite G; ring.
Qed.

Lemma nmean_rmean (l : list R) : nmean l = rmean l.
Proof. unfold nmean, rmean. rewrite nsum_rsum. rnum. rewrite INR_IZR_INZ. reflexivity. Qed.

Lemma map2_length {B C D} (f : B -> C -> D) : forall l m, length l = length m -> length (map2 f l m) = length l.
Proof. induction l; destruct m; simpl; intros; try discriminate; auto. Qed.

Lemma rsum_map2 l : forall m, length l = length m -> rsum (map2 Rplus l m) = rsum l + rsum m.
Proof.
  induction l as [|x l IH]; destruct m as [|y m]; simpl; intros H; try discriminate; [ring|].
  fold (rsum (map2 Rplus l m)). rewrite IH by congruence. unfold rsum; ring.
Qed.

Lemma forc_eq nh sh vn vs : length vn = length vs ->
  tl_forc nh sh vn vs = (nh + sh) / 2 + (rmean vn + rmean vs).
Proof.
  intros H. unfold tl_forc. rewrite nmean_rmean. rnum. f_equal. unfold rmean.
  rewrite map2_length by exact H. rewrite rsum_map2 by exact H. rewrite <- H.
  unfold Rdiv; ring.
Qed.

Lemma c_fast_cap p : tl_c_fast p = capacity (tl_mixed p).
Proof. unfold tl_c_fast, capacity, WATER_DENSITY, WATER_HEAT_CAPACITY, SEC_DAY, DAY_YEAR; rnum; reflexivity. Qed.
Lemma c_slow_cap p : tl_c_slow p = capacity (tl_deep p).
Proof. unfold tl_c_slow, capacity, WATER_DENSITY, WATER_HEAT_CAPACITY, SEC_DAY, DAY_YEAR; rnum; reflexivity. Qed.

Lemma cap_nz d : d <> 0 -> capacity d <> 0.
Proof. unfold capacity; intros H. apply Rmult_integral_contrapositive_currified; [|apply Rinv_neq_0_compat; lra]. repeat apply Rmult_integral_contrapositive_currified; lra. Qed.
Lemma cap_pos d : 0 < d -> 0 < capacity d.
Proof. unfold capacity; intros H. apply Rdiv_lt_0_compat; lra. Qed.

(** The year's effective forcing and feedback as functions of the inputs. *)
Definition in_forc (i : tl_in R) : R := tl_forc (i_nh i) (i_sh i) (i_vn i) (i_vs i).
Definition in_lambda (p : tl_pam R) (i : tl_in R) : R := tl_lambda p + i_w i * tl_delta p.

Lemma year_out p s i :
  let lam := in_lambda p i in let F := in_forc i in
  let cf := capacity (tl_mixed p) in let cs := capacity (tl_deep p) in
  let tf := temp_fast s + (F - temp_fast s * lam - tl_k p * tl_eff p * (temp_fast s - temp_slow s)) / cf in
  let ts := temp_slow s + tl_k p * (temp_fast s - temp_slow s) / cs in
  let s' := fst (tl_year p s i) in let o := snd (tl_year p s i) in
  temp_fast s' = tf /\ temp_slow s' = ts /\ lambda_eff s' = lam /\
  o_fast o = tf /\ o_slow o = ts /\
  o_RIB o = F - lam * tf - (tl_eff p - 1) * tl_k p * (tf - ts) /\
  o_dtemp o = F / lam * (1 - (tl_foan p + tl_foas p) / 2) + tf * (tl_foan p + tl_foas p) / 2 /\
  o_OHC_MIXED o = tf * cf * joule22 /\ o_OHC_DEEP o = ts * cs * joule22 /\
  o_OHCTOT o = (tf * cf + ts * cs) * joule22 /\ o_sea o = tf /\
  o_OHC700 o = tl_ohc700 p (tf * cf * joule22) (ts * cs * joule22).
Proof.
  intros lam F cf cs tf ts s' o.
  assert (J : forall t c, t * c * (86400 * 365) * IZR (361 * 10 ^ 12) / IZR (10 ^ 22) = t * c * joule22).
  { intros t c. unfold joule22. simpl. field. }
  subst s' o. unfold tl_year, tl_energy_budget, tl_set_feedback. cbn [fst snd temp_fast temp_slow lambda_eff o_fast o_slow o_RIB o_dtemp o_OHC_MIXED o_OHC_DEEP o_OHCTOT o_sea o_OHC700].
  rewrite c_fast_cap, c_slow_cap. fold (in_forc i). fold F. fold cf cs.
  unfold SEC_DAY, DAY_YEAR, OCEAN_AREA. unfold in_lambda in lam. rnum. fold lam. fold tf ts.
  rewrite !J. repeat split; try reflexivity. ring.
Qed.

Lemma run_step p : forall ins s n o1 o2 i,
  nth_error (tl_run p s ins) n = Some o1 -> nth_error (tl_run p s ins) (S n) = Some o2 ->
  nth_error ins (S n) = Some i ->
  exists s1, temp_fast s1 = o_fast o1 /\ temp_slow s1 = o_slow o1 /\ snd (tl_year p s1 i) = o2.
Proof.
  induction ins as [|i0 ins IH]; intros s n o1 o2 i H1 H2 H3; [destruct n; discriminate|].
  cbn [tl_run] in H1, H2. destruct (tl_year p s i0) as [s' o] eqn:Y.
  destruct n as [|n].
  - cbn in H1. injection H1 as <-. exists s'.
    pose proof (year_out p s i0) as Q; rewrite Y in Q; cbn in Q. cbn [nth_error] in H2, H3.
    destruct ins as [|i1 ins]; [discriminate|]. cbn in H3; injection H3 as ->.
    cbn [tl_run] in H2. destruct (tl_year p s' i) as [s2 o2'] eqn:Y2. cbn in H2. injection H2 as <-.
    split; [|split]; try reflexivity; destruct Q as (Q1 & Q2 & _ & Q3 & Q4 & _); congruence.
  - cbn [nth_error] in *. eapply IH; eassumption.
Qed.

(** C09 *)
Lemma c09_year p s i : tl_mixed p <> 0 -> tl_deep p <> 0 ->
  o_OHCTOT (snd (tl_year p s i))
  - (temp_fast s * capacity (tl_mixed p) + temp_slow s * capacity (tl_deep p)) * joule22
  = (in_forc i - in_lambda p i * temp_fast s
     - (tl_eff p - 1) * tl_k p * (temp_fast s - temp_slow s)) * joule22.
Proof.
  intros Hm Hd. destruct (year_out p s i) as (_ & _ & _ & _ & _ & _ & _ & _ & _ & H & _). rewrite H.
  apply cap_nz in Hm, Hd. field. split; assumption.
Qed.

Lemma ohctot_of p s ins n o1 : nth_error (tl_run p s ins) n = Some o1 ->
  o_OHCTOT o1 = (o_fast o1 * capacity (tl_mixed p) + o_slow o1 * capacity (tl_deep p)) * joule22.
Proof.
  revert s n. induction ins as [|i0 ins IH]; intros s n H; [destruct n; discriminate|].
  cbn [tl_run] in H. destruct (tl_year p s i0) as [s' o] eqn:Y. destruct n as [|n]; [|cbn in H; eapply IH, H].
  cbn in H. injection H as <-. pose proof (year_out p s i0) as Q; rewrite Y in Q; cbn in Q.
  destruct Q as (_ & _ & _ & H1 & H2 & _ & _ & _ & _ & H3 & _). rewrite H1, H2. exact H3.
Qed.

Lemma c09_run p s ins n o1 o2 i : tl_mixed p <> 0 -> tl_deep p <> 0 ->
  nth_error (tl_run p s ins) n = Some o1 -> nth_error (tl_run p s ins) (S n) = Some o2 ->
  nth_error ins (S n) = Some i -> length (i_vn i) = length (i_vs i) ->
  let F := (i_nh i + i_sh i) / 2 + (rmean (i_vn i) + rmean (i_vs i)) in
  let lam := tl_lambda p + i_w i * tl_delta p in
  o_OHCTOT o2 - o_OHCTOT o1 =
  (F - lam * o_fast o1 - (tl_eff p - 1) * tl_k p * (o_fast o1 - o_slow o1)) * joule22.
Proof.
  intros Hm Hd H1 H2 Hi L F lam. destruct (run_step _ _ _ _ _ _ _ H1 H2 Hi) as (s1 & E1 & E2 & E3).
  pose proof (c09_year p s1 i Hm Hd) as C. rewrite E3, E1, E2 in C.
  rewrite (ohctot_of _ _ _ _ _ H1). rewrite C. unfold in_forc. rewrite forc_eq by exact L. reflexivity.
Qed.

(** C10 *)
Lemma rib_of p s ins n o i : nth_error (tl_run p s ins) n = Some o -> nth_error ins n = Some i ->
  o_RIB o = in_forc i - in_lambda p i * o_fast o - (tl_eff p - 1) * tl_k p * (o_fast o - o_slow o).
Proof.
  revert s n. induction ins as [|i0 ins IH]; intros s n H Hi; [destruct n; discriminate|].
  cbn [tl_run] in H. destruct (tl_year p s i0) as [s' o'] eqn:Y. destruct n as [|n]; [|cbn in H, Hi; eapply IH; eassumption].
  cbn in H, Hi. injection H as <-. injection Hi as <-. pose proof (year_out p s i0) as Q; rewrite Y in Q; cbn in Q.
  destruct Q as (_ & _ & _ & H1 & H2 & H3 & _). rewrite H1, H2. exact H3.
Qed.

Lemma nth_error_pred {T} (l : list T) n x : nth_error l (S n) = Some x -> exists y, nth_error l n = Some y.
Proof.
  intros H. destruct (nth_error l n) eqn:E; [eauto|]. apply nth_error_None in E.
  assert (nth_error l (S n) = None) by (apply nth_error_None; lia). congruence.
Qed.

Lemma c10 p s ins n o1 o2 i1 i2 : tl_mixed p <> 0 -> tl_deep p <> 0 ->
  nth_error (tl_run p s ins) n = Some o1 -> nth_error (tl_run p s ins) (S n) = Some o2 ->
  nth_error ins n = Some i1 -> nth_error ins (S n) = Some i2 ->
  length (i_vn i1) = length (i_vs i1) -> length (i_vn i2) = length (i_vs i2) ->
  i_w i1 * tl_delta p = i_w i2 * tl_delta p ->
  let F i := (i_nh i + i_sh i) / 2 + (rmean (i_vn i) + rmean (i_vs i)) in
  let lam := tl_lambda p + i_w i2 * tl_delta p in
  let uptake := (o_OHCTOT o2 - o_OHCTOT o1) / joule22 in
  uptake = o_RIB o1 + (F i2 - F i1) /\
  o_RIB o2 - uptake =
    - (lam + (tl_eff p - 1) * tl_k p) * (o_fast o2 - o_fast o1) + (tl_eff p - 1) * tl_k p * (o_slow o2 - o_slow o1).
Proof.
  intros Hm Hd H1 H2 I1 I2 L1 L2 W F lam uptake.
  assert (J : joule22 <> 0) by (unfold joule22; lra).
  assert (U : uptake = F i2 - lam * o_fast o1 - (tl_eff p - 1) * tl_k p * (o_fast o1 - o_slow o1)).
  { unfold uptake. rewrite (c09_run p s ins n o1 o2 i2 Hm Hd H1 H2 I2 L2). unfold F, lam. field. exact J. }
  pose proof (rib_of _ _ _ _ _ _ H1 I1) as R1. pose proof (rib_of _ _ _ _ _ _ H2 I2) as R2.
  unfold in_lambda, in_forc in R1, R2. rewrite forc_eq in R1, R2 by assumption.
  fold (F i1) in R1. fold (F i2) in R2. rewrite W in R1. fold lam in R1, R2.
  rewrite U, R1, R2. split; ring.
Qed.

(** C11: linearity *)
Definition lin_state (a b : R) (s t : tl_state R) (l : R) : tl_state R :=
  {| temp_fast := lin a b (temp_fast s) (temp_fast t); temp_slow := lin a b (temp_slow s) (temp_slow t); lambda_eff := l |}.

Lemma rsum_lin a b l : forall m, length l = length m -> rsum (map2 (lin a b) l m) = lin a b (rsum l) (rsum m).
Proof.
  induction l as [|x l IH]; destruct m as [|y m]; simpl; intros H; try discriminate; [unfold lin; ring|].
  fold (rsum (map2 (lin a b) l m)). rewrite IH by congruence. unfold lin, rsum; ring.
Qed.
Lemma rmean_lin a b l m : length l = length m -> rmean (map2 (lin a b) l m) = lin a b (rmean l) (rmean m).
Proof. intros H. unfold rmean. rewrite rsum_lin, map2_length by exact H. rewrite <- H. unfold lin, Rdiv; ring. Qed.

Lemma forc_lin a b i j : compatible i j -> in_forc (lin_in a b i j) = lin a b (in_forc i) (in_forc j).
Proof.
  intros (W & L1 & L2 & L3). unfold in_forc, lin_in; cbn [i_nh i_sh i_vn i_vs].
  rewrite !forc_eq; try congruence.
  2:{ rewrite !map2_length; congruence. }
  rewrite !rmean_lin by congruence. unfold lin; field.
Qed.

Lemma ohc700_lin p a b m1 d1 m2 d2 :
  tl_ohc700 p (lin a b m1 m2) (lin a b d1 d2) = lin a b (tl_ohc700 p m1 d1) (tl_ohc700 p m2 d2).
Proof.
  unfold tl_ohc700. rnum. destruct (Rle_dec 700 (tl_mixed p)); unfold lin; [ring|].
  destruct (Rlt_dec 1 ((700 - tl_mixed p) / tl_deep p)); ring.
Qed.

Lemma tl_out_ext (o u : tl_out R) :
  o_dtemp o = o_dtemp u -> o_fast o = o_fast u -> o_slow o = o_slow u -> o_RIB o = o_RIB u ->
  o_OHCTOT o = o_OHCTOT u -> o_OHC_MIXED o = o_OHC_MIXED u -> o_OHC_DEEP o = o_OHC_DEEP u ->
  o_sea o = o_sea u -> o_OHC700 o = o_OHC700 u -> o = u.
Proof. destruct o, u; simpl; intros; subst; reflexivity. Qed.

Lemma year_lin p a b s t l i j : compatible i j ->
  snd (tl_year p (lin_state a b s t l) (lin_in a b i j)) = lin_out a b (snd (tl_year p s i)) (snd (tl_year p t j)) /\
  exists l', fst (tl_year p (lin_state a b s t l) (lin_in a b i j)) = lin_state a b (fst (tl_year p s i)) (fst (tl_year p t j)) l'.
Proof.
  intros C. pose proof (forc_lin a b i j C) as FL. destruct C as (W & _).
  pose proof (year_out p s i) as Y1. pose proof (year_out p t j) as Y2.
  pose proof (year_out p (lin_state a b s t l) (lin_in a b i j)) as Y3.
  cbn zeta in Y1, Y2, Y3. rewrite FL in Y3. unfold in_lambda in *. rewrite <- W in Y2.
  cbn [lin_in i_w lin_state temp_fast temp_slow] in Y3.
  destruct Y1 as (A1 & A2 & A3 & A4 & A5 & A6 & A7 & A8 & A9 & A10 & A11 & A12).
  destruct Y2 as (B1 & B2 & B3 & B4 & B5 & B6 & B7 & B8 & B9 & B10 & B11 & B12).
  destruct Y3 as (D1 & D2 & D3 & D4 & D5 & D6 & D7 & D8 & D9 & D10 & D11 & D12).
  split.
  - apply tl_out_ext; cbn [lin_out o_dtemp o_fast o_slow o_RIB o_OHCTOT o_OHC_MIXED o_OHC_DEEP o_sea o_OHC700].
    + rewrite D7, A7, B7. unfold lin, Rdiv. ring.
    + rewrite D4, A4, B4. unfold lin, Rdiv. ring.
    + rewrite D5, A5, B5. unfold lin, Rdiv. ring.
    + rewrite D6, A6, B6. unfold lin, Rdiv. ring.
    + rewrite D10, A10, B10. unfold lin, Rdiv. ring.
    + rewrite D8, A8, B8. unfold lin, Rdiv. ring.
    + rewrite D9, A9, B9. unfold lin, Rdiv. ring.
    + rewrite D11, A11, B11. unfold lin, Rdiv. ring.
    + rewrite D12, A12, B12. rewrite <- ohc700_lin. f_equal; unfold lin, Rdiv; ring.
  - exists (lambda_eff (fst (tl_year p (lin_state a b s t l) (lin_in a b i j)))).
    destruct (fst (tl_year p (lin_state a b s t l) (lin_in a b i j))) as [x y z] eqn:E.
    unfold lin_state; cbn [temp_fast temp_slow lambda_eff] in *. f_equal.
    + rewrite D1, A1, B1. unfold lin, Rdiv. ring.
    + rewrite D2, A2, B2. unfold lin, Rdiv. ring.
Qed.

Lemma run_lin p a b : forall ins ins' s t l, Forall2 compatible ins ins' ->
  tl_run p (lin_state a b s t l) (map2 (lin_in a b) ins ins') =
  map2 (lin_out a b) (tl_run p s ins) (tl_run p t ins').
Proof.
  induction ins as [|i ins IH]; intros ins' s t l H; inversion H as [|? j ? ins'' C H']; subst; [reflexivity|].
  cbn [map2 tl_run]. destruct (year_lin p a b s t l i j C) as [E1 [l' E2]].
  destruct (tl_year p (lin_state a b s t l) (lin_in a b i j)) as [s3 o3].
  destruct (tl_year p s i) as [s1 o1]. destruct (tl_year p t j) as [s2 o2].
  cbn [fst snd] in *. subst. cbn [map2]. f_equal. apply IH, H'.
Qed.

(** The first year resets [lambda_eff], so its initial value is irrelevant. *)
Lemma run_lambda_irrelevant (p : tl_pam R) tf ts l1 l2 ins :
  tl_run p {| temp_fast := tf; temp_slow := ts; lambda_eff := l1 |} ins =
  tl_run p {| temp_fast := tf; temp_slow := ts; lambda_eff := l2 |} ins.
Proof. destruct ins; reflexivity. Qed.

Lemma c11_superposition p a b ins ins' : Forall2 compatible ins ins' ->
  tl_run p (tl_init p) (map2 (lin_in a b) ins ins') =
  map2 (lin_out a b) (tl_run p (tl_init p) ins) (tl_run p (tl_init p) ins').
Proof.
  intros H. rewrite <- run_lin with (l := tl_lambda p) by exact H.
  unfold tl_init, lin_state; cbn [temp_fast temp_slow lambda_eff]. rnum. f_equal. f_equal; unfold lin; ring.
Qed.

Lemma rmean_zero l : Forall (eq 0) l -> rmean l = 0.
Proof.
  intros H. unfold rmean. assert (E : rsum l = 0); [|rewrite E; unfold Rdiv; ring].
  induction H as [|x l Hx Hl IH]; [reflexivity|]. cbn [rsum fold_right]. fold (rsum l). rewrite IH. lra.
Qed.

Lemma zero_forc i : zero_in i -> in_forc i = 0.
Proof.
  intros (H1 & H2 & H3 & H4 & H5). unfold in_forc. rewrite forc_eq by exact H5.
  rewrite H1, H2, (rmean_zero _ H3), (rmean_zero _ H4). lra.
Qed.

Lemma ohc700_zero (p : tl_pam R) : tl_ohc700 p 0 0 = 0.
Proof.
  unfold tl_ohc700. rnum. destruct (Rle_dec 700 (tl_mixed p)); [ring|].
  destruct (Rlt_dec 1 ((700 - tl_mixed p) / tl_deep p)); ring.
Qed.

Lemma c11_zero p ins : forall l, Forall zero_in ins ->
  Forall (eq zero_out) (tl_run p {| temp_fast := 0; temp_slow := 0; lambda_eff := l |} ins).
Proof.
  induction ins as [|i ins IH]; intros l H; [constructor|]. inversion H as [|? ? Z H']; subst.
  cbn [tl_run]. set (s := {| temp_fast := 0; temp_slow := 0; lambda_eff := l |}).
  pose proof (year_out p s i) as Y. cbn zeta in Y. rewrite (zero_forc i Z) in Y.
  destruct (tl_year p s i) as [s' o]. cbn [fst snd temp_fast temp_slow s] in Y.
  destruct Y as (A1 & A2 & A3 & A4 & A5 & A6 & A7 & A8 & A9 & A10 & A11 & A12).
  assert (T : temp_fast s' = 0) by (rewrite A1; unfold Rdiv; ring).
  assert (U : temp_slow s' = 0) by (rewrite A2; unfold Rdiv; ring).
  constructor.
  - apply tl_out_ext; cbn [zero_out o_dtemp o_fast o_slow o_RIB o_OHCTOT o_OHC_MIXED o_OHC_DEEP o_sea o_OHC700]; symmetry.
    + rewrite A7; unfold Rdiv; ring.
    + rewrite A4; unfold Rdiv; ring.
    + rewrite A5; unfold Rdiv; ring.
    + rewrite A6; unfold Rdiv; ring.
    + rewrite A10; unfold Rdiv; ring.
    + rewrite A8; unfold Rdiv; ring.
    + rewrite A9; unfold Rdiv; ring.
    + rewrite A11; unfold Rdiv; ring.
    + rewrite A12. transitivity (tl_ohc700 p 0 0); [f_equal; unfold Rdiv; ring | apply ohc700_zero].
  - destruct s' as [x y z]. cbn in T, U. subst x y. apply IH, H'.
Qed.

(** C12: contraction to equilibrium *)
Section Converge.
Variables (p : tl_pam R) (F lam : R) (ins : nat -> tl_in R).
Hypothesis HF : forall n, in_forc (ins n) = F.
Hypothesis HL : forall n, in_lambda p (ins n) = lam.
Hypotheses (Hlam : 0 < lam) (Hk : 0 < tl_k p) (He : 0 < tl_eff p).
Let cf := capacity (tl_mixed p).
Let cs := capacity (tl_deep p).
Hypotheses (Hcf : lam + tl_k p * tl_eff p <= cf) (Hcs : tl_k p <= cs).

Local Notation states := (states p ins).


Lemma cf_pos : 0 < cf. Proof. assert (0 < tl_k p * tl_eff p) by (apply Rmult_lt_0_compat; assumption). lra. Qed.
Lemma cs_pos : 0 < cs. Proof. lra. Qed.

Lemma states_step s n :
  temp_fast (states s (S n)) - F / lam =
    (1 - (lam + tl_k p * tl_eff p) / cf) * (temp_fast (states s n) - F / lam)
    + tl_k p * tl_eff p / cf * (temp_slow (states s n) - F / lam) /\
  temp_slow (states s (S n)) - F / lam =
    (1 - tl_k p / cs) * (temp_slow (states s n) - F / lam) + tl_k p / cs * (temp_fast (states s n) - F / lam).
Proof.
  pose proof cf_pos. pose proof cs_pos.
  pose proof (year_out p (states s n) (ins n)) as Y. cbn zeta in Y. rewrite HF, HL in Y. fold cf cs in Y.
  destruct Y as (A1 & A2 & _). cbn [states]. rewrite A1, A2. split; field; lra.
Qed.

Lemma coef_bounds :
  0 <= 1 - (lam + tl_k p * tl_eff p) / cf /\ 0 <= tl_k p * tl_eff p / cf /\ 0 <= 1 - tl_k p / cs /\ 0 <= tl_k p / cs.
Proof.
  pose proof cf_pos. pose proof cs_pos.
  assert (0 < tl_k p * tl_eff p) by (apply Rmult_lt_0_compat; assumption).
  assert ((lam + tl_k p * tl_eff p) / cf <= 1).
  { apply Rmult_le_reg_r with cf; [assumption|]. unfold Rdiv. rewrite Rmult_assoc, Rinv_l by lra. lra. }
  assert (tl_k p / cs <= 1).
  { apply Rmult_le_reg_r with cs; [assumption|]. unfold Rdiv. rewrite Rmult_assoc, Rinv_l by lra. lra. }
  repeat split; try lra.
  - apply Rlt_le, Rdiv_lt_0_compat; assumption.
  - apply Rlt_le, Rdiv_lt_0_compat; assumption.
Qed.

(** Interval invariance. *)
Lemma interval s lo hi n : lo <= F / lam <= hi ->
  lo <= temp_fast s <= hi -> lo <= temp_slow s <= hi ->
  lo <= temp_fast (states s n) <= hi /\ lo <= temp_slow (states s n) <= hi.
Proof.
  intros He0 H1 H2. induction n as [|n [IH1 IH2]]; [split; assumption|].
  destruct (states_step s n) as [S1 S2]. destruct coef_bounds as (B1 & B2 & B3 & B4).
  pose proof cf_pos as Pcf. pose proof cs_pos as Pcs.
  set (x := temp_fast (states s n)) in *. set (y := temp_slow (states s n)) in *. set (e := F / lam) in *.
  assert (Sum : 1 - (lam + tl_k p * tl_eff p) / cf + tl_k p * tl_eff p / cf = 1 - lam / cf) by (field; lra).
  set (a := 1 - (lam + tl_k p * tl_eff p) / cf) in *. set (b := tl_k p * tl_eff p / cf) in *.
  set (d := tl_k p / cs) in *.
  assert (0 <= lam / cf) by (apply Rlt_le, Rdiv_lt_0_compat; lra).
  split.
  - replace (temp_fast (states s (S n))) with (a * x + b * y + (lam / cf) * e).
    2:{ replace (lam / cf) with (1 - (a + b)) by (rewrite Sum; ring). lra. }
    assert (Hc : lam / cf = 1 - a - b) by lra. rewrite Hc in *. split; nra.
  - replace (temp_slow (states s (S n))) with ((1 - d) * y + d * x) by lra. split; nra.
Qed.

Definition delta : R := lam / (2 * (tl_k p * tl_eff p)).
Definition rho : R := Rmax (1 - lam / (2 * cf)) (1 - tl_k p / cs * (delta / (1 + delta))).
Definition nrm (s : tl_state R) : R :=
  Rmax (Rabs (temp_fast s - F / lam)) (Rabs (temp_slow s - F / lam) / (1 + delta)).

Lemma delta_pos : 0 < delta.
Proof.
  unfold delta. assert (0 < tl_k p * tl_eff p) by (apply Rmult_lt_0_compat; assumption).
  apply Rdiv_lt_0_compat; lra.
Qed.

Lemma rho_range : 0 <= rho < 1.
Proof.
  pose proof delta_pos as D. pose proof cf_pos. pose proof cs_pos. destruct coef_bounds as (B1 & B2 & B3 & B4).
  assert (0 < tl_k p * tl_eff p) by (apply Rmult_lt_0_compat; assumption).
  split.
  - unfold rho. eapply Rle_trans; [|apply Rmax_l].
    assert (lam / (2 * cf) <= 1); [|lra].
    apply Rmult_le_reg_r with (2 * cf); [lra|]. unfold Rdiv. rewrite Rmult_assoc, Rinv_l by lra. lra.
  - unfold rho. apply Rmax_lub_lt.
    + assert (0 < lam / (2 * cf)) by (apply Rdiv_lt_0_compat; lra). lra.
    + assert (0 < tl_k p / cs * (delta / (1 + delta))); [|lra].
      apply Rmult_lt_0_compat; apply Rdiv_lt_0_compat; lra.
Qed.

Lemma nrm_nonneg s : 0 <= nrm s.
Proof. unfold nrm. eapply Rle_trans; [apply Rabs_pos | apply Rmax_l]. Qed.

Lemma contract s n : nrm (states s (S n)) <= rho * nrm (states s n).
Proof.
  destruct (states_step s n) as [S1 S2]. destruct coef_bounds as (B1 & B2 & B3 & B4).
  pose proof delta_pos as D. pose proof cf_pos as Pcf. pose proof cs_pos as Pcs.
  pose proof (nrm_nonneg (states s n)) as Pn.
  assert (Pke : 0 < tl_k p * tl_eff p) by (apply Rmult_lt_0_compat; assumption).
  assert (X : Rabs (temp_fast (states s n) - F / lam) <= nrm (states s n)) by apply Rmax_l.
  assert (Y : Rabs (temp_slow (states s n) - F / lam) <= (1 + delta) * nrm (states s n)).
  { assert (Q : Rabs (temp_slow (states s n) - F / lam) / (1 + delta) <= nrm (states s n)) by apply Rmax_r.
    apply Rmult_le_compat_l with (r := 1 + delta) in Q; [|lra].
    replace ((1 + delta) * (Rabs (temp_slow (states s n) - F / lam) / (1 + delta)))
      with (Rabs (temp_slow (states s n) - F / lam)) in Q by (field; lra). exact Q. }
  set (M := nrm (states s n)) in *.
  unfold nrm. apply Rmax_lub.
  - rewrite S1. eapply Rle_trans; [apply Rabs_triang|]. rewrite !Rabs_mult.
    rewrite (Rabs_right (1 - _)) by lra. rewrite (Rabs_right (tl_k p * tl_eff p / cf)) by lra.
    apply Rle_trans with ((1 - lam / (2 * cf)) * M).
    + assert (E : 1 - lam / (2 * cf) = (1 - (lam + tl_k p * tl_eff p) / cf) + tl_k p * tl_eff p / cf * (1 + delta)).
      { unfold delta. field. split; [apply Rgt_not_eq, He | split; [apply Rgt_not_eq, Hk | lra]]. }
      rewrite E. nra.
    + apply Rmult_le_compat_r; [exact Pn | apply Rmax_l].
  - rewrite S2. apply Rle_trans with ((1 - tl_k p / cs * (delta / (1 + delta))) * M).
    + apply Rmult_le_reg_r with (1 + delta); [lra|].
      unfold Rdiv at 1. rewrite Rmult_assoc, Rinv_l, Rmult_1_r by lra.
      eapply Rle_trans; [apply Rabs_triang|]. rewrite !Rabs_mult.
      rewrite (Rabs_right (1 - _)) by lra. rewrite (Rabs_right (tl_k p / cs)) by lra.
      replace ((1 - tl_k p / cs * (delta / (1 + delta))) * M * (1 + delta))
        with ((1 - tl_k p / cs) * ((1 + delta) * M) + tl_k p / cs * M) by (field; lra).
      nra.
    + apply Rmult_le_compat_r; [exact Pn | apply Rmax_r].
Qed.

Lemma geometric s n : nrm (states s n) <= rho ^ n * nrm s.
Proof.
  induction n as [|n IH]; [simpl; lra|]. pose proof rho_range as [R0 R1].
  eapply Rle_trans; [apply contract|]. simpl. rewrite Rmult_assoc. apply Rmult_le_compat_l; assumption.
Qed.

Lemma c12_bound s n :
  Rabs (temp_fast (states s n) - F / lam) <= rho ^ n * nrm s /\
  Rabs (temp_slow (states s n) - F / lam) <= (1 + delta) * (rho ^ n * nrm s).
Proof.
  pose proof delta_pos as D. pose proof (geometric s n) as G. split.
  - eapply Rle_trans; [apply Rmax_l|exact G].
  - assert (Q : Rabs (temp_slow (states s n) - F / lam) / (1 + delta) <= rho ^ n * nrm s) by (eapply Rle_trans; [apply Rmax_r|exact G]).
    apply Rmult_le_compat_l with (r := 1 + delta) in Q; [|lra].
    replace ((1 + delta) * (Rabs (temp_slow (states s n) - F / lam) / (1 + delta)))
      with (Rabs (temp_slow (states s n) - F / lam)) in Q by (field; lra). exact Q.
Qed.

Lemma geo_cv C : Un_cv (fun n => rho ^ n * C) 0.
Proof.
  pose proof rho_range as [R0 R1].
  replace 0 with (0 * C) by ring. apply CV_mult.
  - intros eps Heps. destruct (pow_lt_1_zero rho) with (y := eps) as [N HN]; [rewrite Rabs_right; lra | exact Heps|].
    exists N. intros n Hn. unfold R_dist. rewrite Rminus_0_r. apply HN, Hn.
  - intros eps Heps. exists 0%nat. intros. unfold R_dist. rewrite Rminus_diag_eq, Rabs_R0; auto.
Qed.

Lemma squeeze_cv (u v : nat -> R) l : (forall n, Rabs (u n - l) <= v n) -> Un_cv v 0 -> Un_cv u l.
Proof.
  intros H Hv eps Heps. destruct (Hv eps Heps) as [N HN]. exists N. intros n Hn.
  specialize (HN n Hn). unfold R_dist in *. rewrite Rminus_0_r in HN.
  eapply Rle_lt_trans; [apply H|]. eapply Rle_lt_trans; [apply Rle_abs | exact HN].
Qed.

Lemma c12_limits s :
  Un_cv (fun n => temp_fast (states s n)) (F / lam) /\
  Un_cv (fun n => temp_slow (states s n)) (F / lam) /\
  Un_cv (fun n => o_dtemp (snd (tl_year p (states s n) (ins n)))) (F / lam).
Proof.
  assert (C1 : Un_cv (fun n => temp_fast (states s n)) (F / lam)).
  { apply squeeze_cv with (v := fun n => rho ^ n * nrm s); [intros n; apply c12_bound | apply geo_cv]. }
  split; [exact C1|split].
  - apply squeeze_cv with (v := fun n => rho ^ n * ((1 + delta) * nrm s)).
    + intros n. replace (rho ^ n * ((1 + delta) * nrm s)) with ((1 + delta) * (rho ^ n * nrm s)) by ring. apply c12_bound.
    + apply geo_cv.
  - intros eps Heps.
    set (h := (tl_foan p + tl_foas p) / 2).
    assert (Hh : 0 < 1 + Rabs h) by (pose proof (Rabs_pos h); lra).
    destruct (C1 (eps / (1 + Rabs h))) as [N HN]; [apply Rdiv_lt_0_compat; assumption|].
    exists N. intros n Hn. specialize (HN (S n)). unfold R_dist in *.
    assert (E : o_dtemp (snd (tl_year p (states s n) (ins n))) - F / lam = h * (temp_fast (states s (S n)) - F / lam)).
    { pose proof (year_out p (states s n) (ins n)) as Y. cbn zeta in Y. rewrite HF, HL in Y.
      destruct Y as (A1 & _ & _ & _ & _ & _ & A7 & _). cbn [states]. rewrite A7, A1. unfold h. pose proof cf_pos as Pcf. unfold cf in Pcf. field. repeat split; lra. }
    rewrite E, Rabs_mult.
    assert (Q : Rabs (temp_fast (states s (S n)) - F / lam) < eps / (1 + Rabs h)) by (apply HN; lia).
    apply Rle_lt_trans with ((1 + Rabs h) * Rabs (temp_fast (states s (S n)) - F / lam)).
    + apply Rmult_le_compat_r; [apply Rabs_pos | lra].
    + apply Rmult_lt_compat_l with (r := 1 + Rabs h) in Q; [|exact Hh].
      replace ((1 + Rabs h) * (eps / (1 + Rabs h))) with eps in Q by (field; lra). exact Q.
Qed.
End Converge.
