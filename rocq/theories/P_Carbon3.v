(** * P_Carbon3: steady state (C25) and carbon closure (C26, C34) of the default carbon cycle *)
From Coq Require Import Reals ZArith List Bool Lra Lia.
From Verif Require Import Num M_Carbon Spec_UDM Spec_Carbon P_Carbon P_Carbon2.
Import ListNotations.
Open Scope R_scope.

Lemma sumn_zero f n : (forall j, (j < n)%nat -> f j = 0) -> sumn f n = 0.
Proof. induction n as [|n IH]; intro H; cbn [sumn]; [reflexivity|]. rewrite IH, H by (intros; try apply H; lia). lra. Qed.
Lemma zero_nth l j : Forall (fun x : R => x = 0) l -> nth j l 0 = 0.
Proof.
  intro H. revert j. induction H as [|x l Hx Hl IH]; intros [|j]; cbn [nth]; auto.
Qed.
Lemma upd_zero l i : Forall (fun x : R => x = 0) l -> forall v, v = 0 -> Forall (fun x : R => x = 0) (upd l i v).
Proof. intro H. revert i. induction H as [|x l Hx Hl IH]; intros [|i] v Hv; cbn [upd]; constructor; auto. Qed.
Lemma firstn_zero l n : Forall (fun x : R => x = 0) l -> Forall (fun x : R => x = 0) (firstn n l).
Proof. intro H. revert n. induction H as [|x l Hx Hl IH]; intros [|n]; cbn [firstn]; constructor; auto. Qed.
Lemma dot_zero a b : Forall (fun x : R => x = 0) a -> dot a b = 0.
Proof.
  intro H. unfold dot. rewrite nsum_sumn. apply sumn_zero. intros j Hj. rewrite map2_length in Hj.
  rewrite (map2_nth nmul a b j 0 0 0) by lia. rewrite (zero_nth a j H). rnum. ring.
Qed.
Lemma pco2_zero : pco2_ocean (0 : R) = 0.
Proof.
  unfold pco2_ocean, Z_CO2_MAX, pco2_poly. replace (nleb 0 (dec 2935 1)) with true.
  - rnum. ring.
  - symmetry. rnum. rdec. destruct (Rle_dec 0 (2935 / 10)); [reflexivity|lra].
Qed.

Record zero_state (p : cc_pam R) (h : cc_state R) : Prop := {
  zs_y : h_y h = 0; zs_x : h_x h = preind p; zs_s : Forall (fun x => x = 0) (h_s h); zs_emp : h_emp h = 0;
  zs_d : Forall (fun x => x = 0) (h_d h); zs_ss1 : h_ss1 h = 0; zs_sums : h_sums h = 0 }.

Lemma sumz_zero p s it : Forall (fun x : R => x = 0) s -> sumz p s it = 0.
Proof. intro H. unfold sumz. destruct (Nat.eqb it 0); [reflexivity|]. apply dot_zero, firstn_zero, H. Qed.
Lemma sumf_zero p d it : Forall (fun x : R => x = 0) d -> sumf p d it = 0.
Proof.
  intro H. unfold sumf. destruct (Nat.eqb it 0); [reflexivity|]. apply dot_zero, firstn_zero.
  destruct H; [constructor|assumption].
Qed.

Lemma step_zero p fnpp h it : preind p <> 0 -> zero_state p h -> zero_state p (cc_step p fnpp 0 h it).
Proof.
  intros Hp [Hy Hx Hs He Hd H1 Hsm].
  set (d := if Nat.eqb it 0 then h_d h else upd (h_d h) it (fnpp * beta_f p * ln (h_x h / preind p))).
  assert (Zd : Forall (fun x => x = 0) d).
  { unfold d. destruct (Nat.eqb it 0); [exact Hd|]. apply upd_zero; [exact Hd|]. rewrite Hx.
    replace (preind p / preind p) with 1 by (field; exact Hp). rewrite ln_1. ring. }
  assert (Zf : (nsub 0 (nsub (nth it d 0) (nmul (cc_dt p) (sumf p d it)))) / PPM_CO2_TO_PG_C = 0).
  { rewrite (zero_nth d it Zd), (sumf_zero p d it Zd). rnum. unfold Rdiv. ring. }
  set (ss1 := if Nat.eqb it 0 then dec 5 1 * 0 / k_gas else h_ss1 h).
  assert (Z1 : ss1 = 0). { unfold ss1. destruct (Nat.eqb it 0); [unfold Rdiv; ring|exact H1]. }
  set (ss2 := if Nat.eqb it 0 then ss1 else dec 5 1 * 0 / k_gas - h_y h / (nmul (nmul (cc_dt p) CC_OCEAN_AREA) GE_COEFF)).
  assert (Z2 : ss2 = 0). { unfold ss2. destruct (Nat.eqb it 0); [exact Z1|]. rewrite Hy. unfold Rdiv. ring. }
  set (sm := if Nat.eqb it 0 then 0 else h_sums h + h_emp h / k_gas - nth (it - 1) (h_s h) 0).
  assert (Zm : sm = 0).
  { unfold sm. destruct (Nat.eqb it 0); [reflexivity|]. rewrite Hsm, He, (zero_nth _ _ Hs). unfold Rdiv. ring. }
  set (s := upd (h_s h) it (cc1 p * (sm + ss1 + ss2))).
  assert (Zs : Forall (fun x => x = 0) s). { apply upd_zero; [exact Hs|]. rewrite Zm, Z1, Z2. ring. }
  assert (Zy : forall sol ml, sol * pco2_ocean (z_co2 p s ml it) = 0).
  { intros sol ml. unfold z_co2. change (@nofZ R RNum 0) with 0. rewrite (sumz_zero p s it Zs), (zero_nth s it Zs).
    replace (nmul _ _) with (0 : R) by (rnum; unfold Rdiv; ring). rewrite pco2_zero. ring. }
  unfold cc_step. cbv zeta. change (@nofZ R RNum 0) with 0. change (@nln R RNum) with ln.
  change (if Nat.eqb it 0 then h_d h else upd (h_d h) it _) with d.
  change (ndiv (nsub 0 (nsub (nth it d 0) (nmul (cc_dt p) (sumf p d it)))) PPM_CO2_TO_PG_C)
    with ((nsub 0 (nsub (nth it d 0) (nmul (cc_dt p) (sumf p d it)))) / PPM_CO2_TO_PG_C).
  rewrite Zf.
  change (if Nat.eqb it 0 then ndiv (nmul (dec 5 1) 0) k_gas else h_ss1 h) with ss1.
  change (if Nat.eqb it 0 then ss1 else _) with ss2.
  change (if Nat.eqb it 0 then 0 else nsub (nadd (h_sums h) (ndiv (h_emp h) k_gas)) (nth (it - 1) (h_s h) 0)) with sm.
  change (upd (h_s h) it _) with s.
  constructor; cbn [h_y h_x h_s h_emp h_d h_ss1 h_sums]; try assumption; try reflexivity.
  - unfold partial_pressure. cbn [h_s h_ml h_sol]. apply Zy.
  - unfold partial_pressure. cbn [h_s h_ml h_sol]. change (nmul (h_sol h) (pco2_ocean (z_co2 p s (h_ml h) it)))
      with (h_sol h * pco2_ocean (z_co2 p s (h_ml h) it)). rewrite Zy, (zero_nth s it Zs), Hy. rnum. ring.
Qed.
Lemma utf_zero p h t : zero_state p h -> zero_state p (update_temp_feedbacks p h t).
Proof. intros [? ? ? ? ? ? ?]. constructor; assumption. Qed.
Lemma fold_zero p fnpp l : preind p <> 0 -> forall h, zero_state p h -> zero_state p (fold_left (cc_step p fnpp 0) l h).
Proof. intro Hp. induction l as [|i l IH]; intros h H; [exact H|]. cbn [fold_left]. apply IH, step_zero; assumption. Qed.
Lemma run_zero p ins : preind p <> 0 -> Forall (fun i => fst i = 0) ins -> forall h yr, zero_state p h ->
  zero_state p (fst (cc_run p h yr ins)) /\ Forall (fun c => c = preind p) (snd (cc_run p h yr ins)).
Proof.
  intros Hp H. induction H as [|[em t] ins He Hi IH]; intros h yr Hz; [split; [exact Hz|constructor]|].
  cbn [fst] in He. subst em. cbn [cc_run]. unfold co2em2conc. cbv zeta.
  set (h' := fold_left _ _ _). assert (Z' : zero_state p h') by (apply fold_zero, utf_zero; assumption).
  destruct (IH h' (S yr) Z') as [Za Zb]. destruct (cc_run p h' (S yr) ins) as [h2 cs]. cbn [fst snd] in *.
  split; [exact Za|]. constructor; [apply (zs_x p h' Z')|exact Zb].
Qed.
Lemma tab_zero n : Forall (fun x : R => x = 0) (tab n (fun _ => 0)).
Proof. unfold tab. apply Forall_map. apply Forall_forall. reflexivity. Qed.
Lemma init_zero p : zero_state p (cc_init p).
Proof. constructor; try reflexivity; apply tab_zero. Qed.
Lemma reset_zero p h : zero_state p (cc_reset p h).
Proof. constructor; try reflexivity; apply tab_zero. Qed.
