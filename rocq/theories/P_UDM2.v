(** * P_UDM2: assembled coefficients, conservation and positivity of one sub-step *)
From Coq Require Import Reals ZArith List Lra Lia Bool.
From Verif Require Import Num M_TwoLayer M_UDM Spec_UDM P_UDM.
Import ListNotations.
Open Scope R_scope.

Lemma IZR_0 : nofZ 0 = 0 :> R. Proof. reflexivity. Qed.
Lemma IZR_1 : nofZ 1 = 1 :> R. Proof. reflexivity. Qed.

Section P.
Variable p : ud_pam R.

Definition sys_l (rk wc : R) (i : nat) : R :=
  match i with O => 0 | S O => - rk / 10000 + wc / 100 | _ => - rk / 20000 end.
Definition sys_u (rk wc eps : R) (i : nat) : R :=
  if Nat.ltb (i + 1) (lm p) then
    match i with O => - (eps * (rk / (100 * mixed p))) | _ => - rk / 20000 - wc / 100 end
  else 0.
Definition sys_b (rk wc eps gam : R) (i : nat) : R :=
  match i with
  | O => 1 + eps * (rk / (100 * mixed p)) + gam - wc / mixed p
  | _ => 1 - sys_l rk wc i - (if Nat.ltb (i + 1) (lm p) then sys_u rk wc eps i else - (wc / 100))
  end.

Lemma eff_c_R (cp : nat -> R) i : eff_c p cp i = if Nat.eqb i 1 then cp 1%nat * efficacy p else cp i.
Proof.
  unfold eff_c. rnum. destruct (Req_EM_T (efficacy p) 1) as [E|E]; [|reflexivity].
  rewrite E. destruct (Nat.eqb_spec i 1) as [->|]; [ring|reflexivity].
Qed.
Lemma eff_b_R (bp cp : nat -> R) i :
  eff_b p bp cp i = if Nat.eqb i 0 then bp 0%nat + cp 1%nat - cp 1%nat * efficacy p else bp i.
Proof.
  unfold eff_b. rnum. destruct (Req_EM_T (efficacy p) 1) as [E|E]; [|reflexivity].
  rewrite E. destruct (Nat.eqb_spec i 0) as [->|]; [ring|reflexivity].
Qed.

Lemma coef_a_0 wc : coef_a p wc 0 = - rakapafac p / 10000 + wc / 100.
Proof. unfold coef_a. cbn [Nat.eqb dz]. rnum. field. Qed.
Lemma coef_a_in wc i : (1 <= i < lm p - 1)%nat -> coef_a p wc i = - rakapafac p / 20000.
Proof.
  intro H. unfold coef_a. destruct i as [|i]; [lia|]. cbn [Nat.eqb].
  destruct (Nat.ltb_spec (S i) (lm p - 1)); [|lia]. cbn [Nat.add dz]. rnum. field.
Qed.
Lemma coef_c_1 wc : 0 < mixed p -> coef_c p wc 1 = - (rakapafac p / (100 * mixed p)).
Proof. intro H. unfold coef_c. cbn [Nat.eqb dz]. rnum. field. lra. Qed.
Lemma coef_c_in wc i : (2 <= i)%nat -> coef_c p wc i = - rakapafac p / 20000 - wc / 100.
Proof.
  intro H. unfold coef_c. destruct i as [|[|i]]; try lia. cbn [Nat.eqb Nat.sub dz]. rnum. field.
Qed.

(** the matrix rows *)
Definition sys_row (wc gam : R) (d : list R) (i : nat) : row R :=
  {| r_l := sys_l (rakapafac p) wc i; r_b := sys_b (rakapafac p) wc (efficacy p) gam i;
     r_u := sys_u (rakapafac p) wc (efficacy p) i; r_d := nth i d 0 |}.
Definition arrA wc := tab (lm p) (coef_a p wc).
Definition arrB wc gam := tab (lm p) (eff_b p (coef_b p wc gam) (coef_c p wc)).
Definition arrC wc := tab (lm p) (eff_c p (coef_c p wc)).

Hypothesis Hlm : (2 <= lm p)%nat.
Hypothesis Hmix : 0 < mixed p.

Lemma rows_eq wc gam d : length d = lm p ->
  band_rows (arrA wc) (arrB wc gam) (arrC wc) d = tab (lm p) (sys_row wc gam d).
Proof.
  intro Hd. unfold band_rows. rewrite Hd. apply tab_ext. intros i Hi. unfold sys_row, arrA, arrB, arrC.
  change (nofZ 0 : R) with 0.
  rewrite (nth_tab _ _ i _ Hi). f_equal.
  - destruct i as [|[|i]]; [reflexivity| |].
    + rewrite nth_tab by lia. rewrite coef_a_0. reflexivity.
    + rewrite nth_tab by lia. rewrite coef_a_in by lia. reflexivity.
  - rewrite eff_b_R. destruct i as [|i].
    + cbn [Nat.eqb]. unfold coef_b. cbn [Nat.eqb]. rewrite coef_c_1 by exact Hmix. cbn [sys_b dz]. rnum. field. lra.
    + cbn [Nat.eqb]. unfold coef_b, sys_b. cbn [Nat.eqb].
      replace (Nat.ltb (S i + 1) (lm p)) with (Nat.ltb (S i) (lm p - 1))
        by (destruct (Nat.ltb_spec (S i) (lm p - 1)), (Nat.ltb_spec (S i + 1) (lm p)); lia || reflexivity).
      destruct (Nat.ltb_spec (S i) (lm p - 1)) as [Hb|Hb].
      * replace (S i - 1)%nat with i by lia.
        rewrite (coef_c_in wc (S i + 1)) by lia. unfold sys_u.
        destruct (Nat.ltb_spec (S i + 1) (lm p)); [|lia].
        destruct i as [|i]; [rewrite coef_a_0|rewrite coef_a_in by lia]; cbn [sys_l]; rnum; ring.
      * assert (i = (lm p - 2)%nat) as Ei by lia. rewrite <- Ei.
        replace (lm p - 1)%nat with (S i) by lia. cbn [dz].
        destruct i as [|i]; [rewrite coef_a_0|rewrite coef_a_in by lia]; cbn [sys_l]; rnum; field.
  - unfold sys_u. destruct (Nat.ltb_spec (i + 1) (lm p)) as [Hb|Hb].
    + rewrite nth_tab by exact Hb. rewrite eff_c_R. destruct i as [|i].
      * cbn [Nat.add Nat.eqb]. rewrite coef_c_1 by exact Hmix. rnum. ring.
      * replace (Nat.eqb (S i + 1) 1) with false by (destruct (Nat.eqb_spec (S i + 1) 1); lia || reflexivity).
        rewrite coef_c_in by lia. reflexivity.
    + rewrite nth_tab_out by exact Hb. reflexivity.
Qed.

Lemma sys_dom wc gam d : length d = lm p -> 0 <= rakapafac p -> 0 <= efficacy p -> 0 <= gam ->
  0 <= wc < 50 -> wc < mixed p ->
  Forall dom (band_rows (arrA wc) (arrB wc gam) (arrC wc) d).
Proof.
  intros Hd Hrk He Hg Hw Hwm. rewrite rows_eq by exact Hd. apply Forall_tab. intros i Hi.
  unfold dom, sys_row. cbn [r_l r_u r_b].
  assert (Hq : 0 <= efficacy p * (rakapafac p / (100 * mixed p))).
  { apply Rmult_le_pos; [exact He|]. apply Rmult_le_pos; [exact Hrk|]. left. apply Rinv_0_lt_compat. lra. }
  assert (Hwd : wc / mixed p < 1).
  { apply (Rmult_lt_reg_r (mixed p)); [exact Hmix|]. unfold Rdiv. rewrite Rmult_assoc, Rinv_l; lra. }
  unfold sys_b, sys_u.
  destruct i as [|[|i]]; cbn [sys_l].
  - destruct (Nat.ltb_spec (0 + 1) (lm p)); [|lia]. rewrite Rabs_R0, Rabs_Ropp, Rabs_right by lra. lra.
  - destruct (Nat.ltb_spec (1 + 1) (lm p)); rewrite ?Rabs_R0; repeat (unfold Rabs; destruct (Rcase_abs _)); lra.
  - destruct (Nat.ltb_spec (S (S i) + 1) (lm p)); rewrite ?Rabs_R0; repeat (unfold Rabs; destruct (Rcase_abs _)); lra.
Qed.
Lemma sys_mrow wc gam d : length d = lm p -> 0 <= rakapafac p -> 0 <= efficacy p -> 0 <= gam ->
  0 <= wc -> wc * 100 <= rakapafac p -> wc < mixed p ->
  Forall mrow (band_rows (arrA wc) (arrB wc gam) (arrC wc) d).
Proof.
  intros Hd Hrk He Hg Hw Hwk Hwm. rewrite rows_eq by exact Hd. apply Forall_tab. intros i Hi.
  unfold mrow, sys_row. cbn [r_l r_u r_b].
  assert (Hq : 0 <= efficacy p * (rakapafac p / (100 * mixed p))).
  { apply Rmult_le_pos; [exact He|]. apply Rmult_le_pos; [exact Hrk|]. left. apply Rinv_0_lt_compat. lra. }
  assert (Hwd : wc / mixed p < 1).
  { apply (Rmult_lt_reg_r (mixed p)); [exact Hmix|]. unfold Rdiv. rewrite Rmult_assoc, Rinv_l; lra. }
  unfold sys_b, sys_u.
  destruct i as [|[|i]]; cbn [sys_l].
  - destruct (Nat.ltb_spec (0 + 1) (lm p)); [|lia]. repeat split; lra.
  - destruct (Nat.ltb_spec (1 + 1) (lm p)); repeat split; lra.
  - destruct (Nat.ltb_spec (S (S i) + 1) (lm p)); repeat split; lra.
Qed.

(** ** conservation of the matrix: thickness-weighted sums *)
Definition wsum (x : list R) (n : nat) : R := sumn (fun i => dz p i * nth i x 0) n.

Lemma solves_rows wc gam d x : length d = lm p ->
  solves (arrA wc) (arrB wc gam) (arrC wc) d x ->
  length x = lm p /\ forall i, (i < lm p)%nat ->
    sys_l (rakapafac p) wc i * prevx 0 x i + sys_b (rakapafac p) wc (efficacy p) gam i * nth i x 0
    + sys_u (rakapafac p) wc (efficacy p) i * nth (i + 1) x 0 = nth i d 0.
Proof.
  intros Hd Hs. apply solves_sat in Hs. rewrite rows_eq in Hs by exact Hd. apply sat_index in Hs.
  rewrite tab_length in Hs. destruct Hs as [Hl Hs]. split; [exact Hl|]. intros i Hi.
  specialize (Hs i _ (nth_error_tab_lt _ _ i Hi)). exact Hs.
Qed.

Lemma matrix_conserves wc gam d x : length d = lm p ->
  solves (arrA wc) (arrB wc gam) (arrC wc) d x ->
  wsum d (lm p) = wsum x (lm p) + gam * mixed p * nth 0 x 0
                  + (efficacy p - 1) * (rakapafac p / 100) * (nth 0 x 0 - nth 1 x 0).
Proof.
  intros Hd Hs. destruct (solves_rows wc gam d x Hd Hs) as [Hl Hrow]. clear Hs.
  set (rk := rakapafac p) in *. set (eps := efficacy p) in *.
  set (phi := fun i => match i with O => rk / 100 * (nth 0 x 0 - nth 1 x 0) - wc * nth 0 x 0
                       | S _ => rk / 200 * (nth i x 0 - nth (i + 1) x 0) - wc * nth (i + 1) x 0 end).
  assert (Hpart : forall n, (S n < lm p)%nat ->
    wsum d (S n) = wsum x (S n) + gam * mixed p * nth 0 x 0 + (eps - 1) * (rk / 100) * (nth 0 x 0 - nth 1 x 0) + phi n).
  { induction n as [|n IH]; intro Hn.
    - unfold wsum. cbn [sumn dz]. rewrite <- (Hrow 0%nat) by lia. cbn [prevx sys_l Nat.add phi].
      unfold sys_b, sys_u. destruct (Nat.ltb_spec (0 + 1) (lm p)); [|lia]. field. lra.
    - unfold wsum in *. cbn [sumn] in IH |- *. rewrite IH by lia. cbn [dz].
      rewrite <- (Hrow (S n)) by lia. unfold sys_b, sys_u.
      destruct (Nat.ltb_spec (S n + 1) (lm p)); [|lia].
      rnum. destruct n as [|n]; cbn [prevx sys_l phi Nat.add dz].
      + field.
      + replace (n + 1)%nat with (S n) by lia. replace (S (n + 1)) with (S (S n)) by lia. field. }
  set (n := (lm p - 2)%nat).
  assert (En : lm p = S (S n)) by lia.
  specialize (Hpart n ltac:(lia)). rewrite En at 1 2. unfold wsum in *. cbn [sumn] in Hpart |- *.
  rewrite Hpart. cbn [dz]. rewrite <- (Hrow (S n)) by lia. unfold sys_b, sys_u.
  destruct (Nat.ltb_spec (S n + 1) (lm p)); [lia|].
  assert (Hz : nth (S n + 1) x 0 = 0) by (apply nth_overflow; lia). rewrite Hz.
  rnum. destruct n as [|n]; cbn [prevx sys_l phi Nat.add dz].
  - field.
  - replace (n + 1)%nat with (S n) by lia. field.
Qed.
End P.
