(** * P_Carbon2: steady state and closure of the default carbon cycle (reals) *)
From Coq Require Import Reals ZArith List Bool Lra Lia.
From Verif Require Import Num M_Carbon Spec_UDM Spec_Carbon P_Carbon.
Import ListNotations.
Open Scope R_scope.

Lemma nsum_snoc (l : list R) x : nsum (l ++ [x]) = nsum l + x.
Proof. unfold nsum. rewrite fold_left_app. reflexivity. Qed.
Lemma sumn_ext f g n : (forall j, (j < n)%nat -> f j = g j) -> sumn f n = sumn g n.
Proof. induction n as [|n IH]; intro H; cbn [sumn]; [reflexivity|]. rewrite IH, H by (intros; try apply H; lia). reflexivity. Qed.
Lemma nsum_sumn (l : list R) : nsum l = sumn (fun j => nth j l 0) (length l).
Proof.
  induction l as [|x l IH] using rev_ind; [reflexivity|]. rewrite nsum_snoc, app_length. cbn [length].
  rewrite Nat.add_1_r. cbn [sumn]. rewrite app_nth2, Nat.sub_diag by lia. cbn [nth]. rewrite IH. f_equal.
  apply sumn_ext. intros j Hj. rewrite app_nth1 by exact Hj. reflexivity.
Qed.
Lemma map2_length {B C D} (f : B -> C -> D) a : forall b, length (map2 f a b) = Nat.min (length a) (length b).
Proof. induction a as [|x a IH]; intros [|y b]; cbn [map2 length]; try reflexivity. rewrite IH. reflexivity. Qed.
Lemma map2_nth {B C D} (f : B -> C -> D) a : forall b j db dc dd, (j < length a)%nat -> (j < length b)%nat ->
  nth j (map2 f a b) dd = f (nth j a db) (nth j b dc).
Proof.
  induction a as [|x a IH]; intros [|y b] [|j] db dc dd H1 H2; cbn [length] in *; try lia; cbn [map2 nth]; [reflexivity|].
  apply IH; lia.
Qed.
Lemma dot_sumn (a b : list R) n : length a = n -> length b = n -> dot a b = sumn (fun j => nth j a 0 * nth j b 0) n.
Proof.
  intros Ha Hb. unfold dot. rewrite nsum_sumn, map2_length, Ha, Hb, Nat.min_id. apply sumn_ext. intros j Hj.
  rewrite (map2_nth nmul a b j 0 0 0) by lia. reflexivity.
Qed.
Lemma nth_firstn {B} (l : list B) n j d : (j < n)%nat -> nth j (firstn n l) d = nth j l d.
Proof.
  revert l j. induction n as [|n IH]; intros [|x l] [|j] H; try lia; try reflexivity. cbn [firstn nth]. apply IH. lia.
Qed.
Lemma nth_tl {B} (l : list B) j d : nth j (tl l) d = nth (S j) l d.
Proof. destruct l; [destruct j; reflexivity|reflexivity]. Qed.

Lemma upd_nth_eq {B} (l : list B) i v d : (i < length l)%nat -> nth i (upd l i v) d = v.
Proof. revert i. induction l as [|x l IH]; intros [|i] H; cbn [length upd nth] in *; try lia; [reflexivity|]. apply IH. lia. Qed.
Lemma upd_nth_ne {B} (l : list B) i j v d : j <> i -> nth j (upd l i v) d = nth j l d.
Proof.
  revert i j. induction l as [|x l IH]; intros [|i] [|j] H; cbn [upd nth]; try reflexivity; try lia. apply IH. lia.
Qed.

Lemma sumz_eq p s it : (it <= length s)%nat -> (it <= length (r_s p))%nat ->
  sumz p s it = sumn (fun j => nth j s 0 * nth (it - 1 - j) (r_s p) 0) (it - 1).
Proof.
  intros H1 H2. unfold sumz. destruct it as [|n]; [reflexivity|]. cbn [Nat.eqb].
  rewrite (dot_sumn _ _ (S n - 1)).
  - apply sumn_ext. intros j Hj. rewrite nth_firstn by exact Hj. f_equal.
    rewrite rev_nth; rewrite firstn_length_le; try lia; [|destruct (r_s p); cbn [tl length] in *; lia|destruct (r_s p); cbn [tl length] in *; lia].
    rewrite nth_firstn by lia. rewrite nth_tl. f_equal. lia.
  - apply firstn_length_le. lia.
  - rewrite rev_length. apply firstn_length_le. destruct (r_s p); cbn [tl length] in *; lia.
Qed.
Lemma sumf_eq p d it : (it <= length d)%nat -> (it <= length (r_b p))%nat ->
  sumf p d it = sumn (fun i => nth (S i) d 0 * nth (it - 2 - i) (r_b p) 0) (it - 1).
Proof.
  intros H1 H2. unfold sumf. destruct it as [|n]; [reflexivity|]. cbn [Nat.eqb].
  rewrite (dot_sumn _ _ (S n - 1)).
  - apply sumn_ext. intros j Hj. rewrite nth_firstn by exact Hj. rewrite nth_tl. f_equal.
    rewrite rev_nth; rewrite firstn_length_le; try lia. rewrite nth_firstn by lia. f_equal. lia.
  - apply firstn_length_le. destruct d; cbn [tl length] in *; lia.
  - rewrite rev_length. apply firstn_length_le. lia.
Qed.

Lemma k_gas_eq : k_gas = gas_rate.
Proof.
  unfold k_gas, GE_COEFF, gas_rate. assert (Ha : (CC_OCEAN_AREA : R) <> 0) by (unfold CC_OCEAN_AREA; rnum; apply not_0_IZR; lia).
  revert Ha. generalize (CC_OCEAN_AREA : R). intros a Ha. rnum. rdec. field. exact Ha.
Qed.
Lemma pgc_eq : PPM_CO2_TO_PG_C = pgc.
Proof. unfold PPM_CO2_TO_PG_C, pgc. rnum. rdec. reflexivity. Qed.
Lemma half_eq : dec 5 1 = 1 / 2.
Proof. rnum. rdec. lra. Qed.
Lemma kdt_eq p : nmul (nmul (cc_dt p) CC_OCEAN_AREA) GE_COEFF = cc_dt p * gas_rate.
Proof. rewrite <- k_gas_eq. unfold k_gas. rnum. ring. Qed.
Lemma cc1_eq p : cc1 p = cc_dt p * gas_rate / (1 + cc_dt p * gas_rate / 2).
Proof. unfold cc1. rewrite kdt_eq. rnum. reflexivity. Qed.
Lemma dt_inr p : cc_dt p = 1 / INR (idtm p).
Proof. unfold cc_dt. rnum. rewrite INR_IZR_INZ. reflexivity. Qed.
Lemma dt_nonneg p : 0 <= cc_dt p.
Proof.
  rewrite dt_inr. destruct (idtm p) as [|n].
  - cbn. unfold Rdiv. rewrite Rinv_0. lra.
  - apply Rlt_le, Rdiv_lt_0_compat; [lra|]. apply lt_0_INR. lia.
Qed.
