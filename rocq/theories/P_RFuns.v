(** * P_RFuns: the decay functions (C32) *)
From Coq Require Import Reals ZArith List Bool Lra Lia Psatz.
From Verif Require Import Num M_RFuns M_Carbon Spec_UDM Spec_Carbon P_Carbon2 P_Carbon4.
Import ListNotations.
Open Scope R_scope.

Lemma nsum_total (l : list R) : nsum l = total l.
Proof. rewrite nsum_sumn, total_sumn. reflexivity. Qed.
Lemma exp_le x y : x <= y -> exp x <= exp y.
Proof. intro H. destruct (Rle_lt_or_eq_dec _ _ H) as [L|E]; [apply Rlt_le, exp_increasing, L|rewrite E; lra]. Qed.
Lemma total_scale k l : total (map (Rmult k) l) = k * total l.
Proof. induction l as [|x l IH]; cbn [map total]; [lra|]. rewrite IH. lra. Qed.
Lemma total_nonneg l : Forall (fun x => 0 <= x) l -> 0 <= total l.
Proof. induction 1; cbn [total]; lra. Qed.

(** limits *)
Lemma tends_const c : tends_to (fun _ => c) c.
Proof. intros eps He. exists 0. intros. rewrite Rminus_diag_eq by reflexivity. rewrite Rabs_R0. exact He. Qed.
Lemma tends_add f g a b : tends_to f a -> tends_to g b -> tends_to (fun t => f t + g t) (a + b).
Proof.
  intros Hf Hg eps He. destruct (Hf (eps / 2) ltac:(lra)) as [T1 H1]. destruct (Hg (eps / 2) ltac:(lra)) as [T2 H2].
  exists (Rmax T1 T2). intros t Ht. specialize (H1 t (Rle_trans _ _ _ (Rmax_l _ _) Ht)). specialize (H2 t (Rle_trans _ _ _ (Rmax_r _ _) Ht)).
  replace (f t + g t - (a + b)) with ((f t - a) + (g t - b)) by ring. eapply Rle_lt_trans; [apply Rabs_triang|]. lra.
Qed.
Lemma tends_scale c f a : tends_to f a -> tends_to (fun t => c * f t) (c * a).
Proof.
  intros Hf eps He. assert (Hp : 0 < Rabs c + 1) by (pose proof (Rabs_pos c); lra).
  destruct (Hf (eps / (Rabs c + 1)) ltac:(apply Rdiv_lt_0_compat; lra)) as [T HT]. exists T. intros t Ht. specialize (HT t Ht).
  replace (c * f t - c * a) with (c * (f t - a)) by ring. rewrite Rabs_mult.
  apply Rle_lt_trans with ((Rabs c) * (eps / (Rabs c + 1))).
  - apply Rmult_le_compat_l; [apply Rabs_pos|lra].
  - apply (Rmult_lt_reg_r (Rabs c + 1)); [exact Hp|]. unfold Rdiv. rewrite Rmult_assoc, Rmult_assoc, Rinv_l by lra. pose proof (Rabs_pos c). nra.
Qed.
Lemma tends_ext f g a : (forall t, f t = g t) -> tends_to f a -> tends_to g a.
Proof. intros E H eps He. destruct (H eps He) as [T HT]. exists T. intros t Ht. rewrite <- E. apply HT, Ht. Qed.
Lemma tends_arg f a k : 0 < k -> tends_to f a -> tends_to (fun t => f (t / k)) a.
Proof.
  intros Hk H eps He. destruct (H eps He) as [T HT]. exists (T * k). intros t Ht. apply HT.
  apply (Rmult_le_reg_r k); [exact Hk|]. unfold Rdiv. rewrite Rmult_assoc, Rinv_l by lra. lra.
Qed.
Lemma exp_small x : 0 <= x -> (x + 1) * exp (- x) <= 2 / (1 + x / 2).
Proof.
  intro Hx. assert (E : 1 + x / 2 <= exp (x / 2)) by (pose proof (exp_ineq1_le (x / 2)); lra).
  assert (E2 : (1 + x / 2) * (1 + x / 2) <= exp x) by (replace x with (x / 2 + x / 2) at 3 by lra; rewrite exp_plus; nra).
  rewrite exp_Ropp. apply (Rmult_le_reg_r (exp x * (1 + x / 2))); [apply Rmult_lt_0_compat; [apply exp_pos|lra]|].
  pose proof (exp_pos x). replace ((x + 1) * / exp x * (exp x * (1 + x / 2))) with ((x + 1) * (1 + x / 2)) by (field; lra).
  replace (2 / (1 + x / 2) * (exp x * (1 + x / 2))) with (2 * exp x) by (field; lra). nra.
Qed.
Lemma tends_decay : tends_to (fun x => (x + 1) * exp (- x)) 0.
Proof.
  intros eps He. exists (4 / eps). intros x Hx. assert (0 < 4 / eps) by (apply Rdiv_lt_0_compat; lra).
  rewrite Rminus_0_r. pose proof (exp_pos (- x)). rewrite Rabs_pos_eq by (apply Rmult_le_pos; lra).
  eapply Rle_lt_trans; [apply exp_small; lra|]. apply (Rmult_lt_reg_r (1 + x / 2)); [lra|].
  unfold Rdiv at 1. rewrite Rmult_assoc, Rinv_l by lra. assert (4 <= x * eps).
  { apply (Rmult_le_compat_r eps) in Hx; [|lra]. unfold Rdiv in Hx. rewrite Rmult_assoc, Rinv_l in Hx by lra. lra. }
  nra.
Qed.
Lemma tends_exp : tends_to (fun x => exp (- x)) 0.
Proof.
  intros eps He. destruct (tends_decay eps He) as [T HT]. exists (Rmax T 0). intros x Hx.
  specialize (HT x (Rle_trans _ _ _ (Rmax_l _ _) Hx)). pose proof (Rle_trans _ _ _ (Rmax_r _ _) Hx).
  pose proof (exp_pos (- x)). rewrite Rminus_0_r in *. rewrite Rabs_pos_eq in * by (try apply Rmult_le_pos; lra).
  eapply Rle_lt_trans; [|exact HT]. nra.
Qed.

(** ** rs_function2 *)
Definition rs_tail (tot : R) (cs ts : list R) (u : R) : R := total (map2 (fun c tim => c / tot * exp (- (u / tim))) cs ts).
Lemma rs_eq it c0 cs ts idtm : rs_function2 it (c0 :: cs) ts idtm = c0 / total (c0 :: cs) + rs_tail (total (c0 :: cs)) cs ts (it / idtm).
Proof.
  unfold rs_function2. cbv zeta. rewrite !nsum_total. cbn [total]. unfold rs_tail. rnum. f_equal. f_equal.
  revert ts. induction cs as [|c cs IH]; intros [|t ts]; try reflexivity. cbn [map2]. 
  assert (G : forall tot l m, map2 (fun c1 tim : R => c1 / tot * exp (- (it / idtm) / tim)) l m = map2 (fun c1 tim => c1 / tot * exp (- (it / idtm / tim))) l m).
  { intros tot l. induction l as [|a l IHl]; intros [|b m]; try reflexivity. cbn [map2]. rewrite IHl. f_equal. f_equal. f_equal. unfold Rdiv. ring. }
  rewrite G. f_equal. f_equal. f_equal. unfold Rdiv. ring.
Qed.
Lemma rs_tail_zero tot cs ts : length cs = length ts -> rs_tail tot cs ts 0 = total cs / tot.
Proof.
  unfold rs_tail. revert ts. induction cs as [|c cs IH]; intros [|t ts] H; cbn [length] in H; try lia; cbn [map2 total]; [unfold Rdiv; ring|].
  rewrite IH by lia. replace (- (0 / t)) with 0 by (unfold Rdiv; ring). rewrite exp_0. unfold Rdiv. ring.
Qed.
Lemma rs_tail_mono tot cs ts : 0 < tot -> Forall (fun c => 0 <= c) cs -> Forall (fun t => 0 < t) ts -> nonincreasing (rs_tail tot cs ts).
Proof.
  intros Ht Hc Hts x y H. unfold rs_tail. revert ts Hts. induction Hc as [|c cs Hc Hcs IH]; intros ts Hts; [cbn; lra|].
  destruct Hts as [|t ts Htt Hts]; [cbn; lra|]. cbn [map2 total]. apply Rplus_le_compat; [|apply IH, Hts].
  apply Rmult_le_compat_l; [apply Rmult_le_pos; [exact Hc|apply Rlt_le, Rinv_0_lt_compat, Ht]|]. apply exp_le, Ropp_le_contravar.
  apply Rmult_le_compat_r; [apply Rlt_le, Rinv_0_lt_compat, Htt|exact H].
Qed.
Lemma rs_tail_nonneg tot cs ts u : 0 < tot -> Forall (fun c => 0 <= c) cs -> 0 <= rs_tail tot cs ts u.
Proof.
  intros Ht Hc. unfold rs_tail. revert ts. induction Hc as [|c cs Hc Hcs IH]; intros ts; [cbn; lra|].
  destruct ts as [|t ts]; [cbn; lra|]. cbn [map2 total]. apply Rplus_le_le_0_compat; [|apply IH].
  apply Rmult_le_pos; [apply Rmult_le_pos; [exact Hc|apply Rlt_le, Rinv_0_lt_compat, Ht]|apply Rlt_le, exp_pos].
Qed.
Lemma rs_tail_lim tot cs ts : Forall (fun t => 0 < t) ts -> tends_to (rs_tail tot cs ts) 0.
Proof.
  intro Hts. unfold rs_tail. revert cs. induction Hts as [|t ts Ht Hts IH]; intros [|c cs]; try (cbn [map2 total]; apply tends_const).
  cbn [map2 total]. replace 0 with (c / tot * 0 + 0) by ring. apply (tends_add (fun u => c / tot * exp (- (u / t)))); [|apply IH].
  apply tends_scale. apply (tends_arg (fun x => exp (- x))); [exact Ht|apply tends_exp].
Qed.
Lemma map2_map_l {B C D E} (f : C -> D -> E) (g : B -> C) l : forall m, map2 f (map g l) m = map2 (fun x y => f (g x) y) l m.
Proof. induction l as [|x l IH]; intros [|y m]; try reflexivity. cbn [map map2]. rewrite IH. reflexivity. Qed.
Lemma map2_ext {B C D} (f g : B -> C -> D) l : (forall x y, f x y = g x y) -> forall m, map2 f l m = map2 g l m.
Proof. intro H. induction l as [|x l IH]; intros [|y m]; try reflexivity. cbn [map2]. rewrite IH, H. reflexivity. Qed.

Section RS.
Variables (c0 : R) (cs ts : list R) (idtm : R).
Hypotheses (Hid : 0 < idtm) (Hc : Forall (fun c => 0 <= c) (c0 :: cs)) (Hs : 0 < total (c0 :: cs)) (Ht : Forall (fun t => 0 < t) ts) (Hl : length cs = length ts).
Lemma rs2_zero : rs_function2 0 (c0 :: cs) ts idtm = 1.
Proof. rewrite rs_eq. replace (0 / idtm) with 0 by (unfold Rdiv; ring). rewrite rs_tail_zero by exact Hl. cbn [total] in *. field. lra. Qed.
Lemma rs2_mono : nonincreasing (fun it => rs_function2 it (c0 :: cs) ts idtm).
Proof.
  intros x y H. rewrite !rs_eq. apply Rplus_le_compat_l. apply rs_tail_mono; try assumption; [inversion Hc; assumption|].
  apply Rmult_le_compat_r; [apply Rlt_le, Rinv_0_lt_compat, Hid|exact H].
Qed.
Lemma rs2_low it : c0 / total (c0 :: cs) <= rs_function2 it (c0 :: cs) ts idtm.
Proof. rewrite rs_eq. pose proof (rs_tail_nonneg (total (c0 :: cs)) cs ts (it / idtm) Hs ltac:(inversion Hc; assumption)). lra. Qed.
Lemma rs2_lim : tends_to (fun it => rs_function2 it (c0 :: cs) ts idtm) (c0 / total (c0 :: cs)).
Proof.
  apply (tends_ext (fun it => c0 / total (c0 :: cs) + rs_tail (total (c0 :: cs)) cs ts (it / idtm))); [intro; rewrite rs_eq; reflexivity|].
  replace (c0 / total (c0 :: cs)) with (c0 / total (c0 :: cs) + 0) at 1 by ring. apply tends_add; [apply tends_const|].
  apply tends_arg; [exact Hid|]. apply rs_tail_lim, Ht.
Qed.
End RS.
Lemma rs2_scale k it c0 cs ts idtm : k <> 0 -> total (c0 :: cs) <> 0 ->
  rs_function2 it (map (Rmult k) (c0 :: cs)) ts idtm = rs_function2 it (c0 :: cs) ts idtm.
Proof.
  intros Hk Ht. cbn [map]. rewrite !rs_eq. change (k * c0 :: map (Rmult k) cs) with (map (Rmult k) (c0 :: cs)). rewrite total_scale.
  f_equal; [field; auto|]. unfold rs_tail. rewrite map2_map_l. f_equal. apply map2_ext. intros x y. f_equal. field. auto.
Qed.

(** ** rb_function2 *)
Definition rb_prim (cs ts : list R) (u : R) : R :=
  total (map2 (fun c tim => c / total cs * (1 - (u / tim + 1) * exp (- (u / tim)))) cs ts).
Lemma rb_eq it cs ts idtm : rb_function2 it cs ts idtm =
  total (map2 (fun c tim => it / idtm * (c / total cs / (tim * tim)) * exp (- (it / idtm / tim))) cs ts).
Proof.
  unfold rb_function2. cbv zeta. rewrite !nsum_total. rnum. f_equal. apply map2_ext. intros x y. f_equal. f_equal. unfold Rdiv. ring.
Qed.
Lemma rb2_zero cs ts idtm : rb_function2 0 cs ts idtm = 0.
Proof.
  rewrite rb_eq. generalize (total cs). intro tot. revert ts. induction cs as [|c cs IH]; intros [|t ts]; try reflexivity. cbn [map2 total].
  rewrite IH. unfold Rdiv. ring.
Qed.
Lemma rb2_nonneg it cs ts idtm : 0 < idtm -> 0 <= it -> Forall (fun c => 0 <= c) cs -> 0 <= rb_function2 it cs ts idtm.
Proof.
  intros Hid Hit Hc. rewrite rb_eq. assert (Hu : 0 <= it / idtm) by (apply Rmult_le_pos; [exact Hit|apply Rlt_le, Rinv_0_lt_compat, Hid]).
  revert Hu. generalize (it / idtm). intros u Hu. pose proof (total_nonneg cs Hc) as Hs. revert Hs. generalize (total cs). intros tot Hs.
  assert (Hi : 0 <= / tot). { destruct (Rle_lt_or_eq_dec _ _ Hs) as [L|E]; [apply Rlt_le, Rinv_0_lt_compat, L|rewrite <- E, Rinv_0; lra]. }
  revert ts. induction Hc as [|c cs Hc Hcs IH]; intros [|t ts]; try (cbn; lra). cbn [map2 total]. apply Rplus_le_le_0_compat; [|apply IH].
  apply Rmult_le_pos; [|apply Rlt_le, exp_pos]. apply Rmult_le_pos; [exact Hu|]. unfold Rdiv. apply Rmult_le_pos; [apply Rmult_le_pos; assumption|].
  destruct (Req_EM_T t 0) as [E|NE]; [rewrite E, Rmult_0_l, Rinv_0; lra|]. apply Rlt_le, Rinv_0_lt_compat. nra.
Qed.
Lemma term_deriv t u : t <> 0 -> derivable_pt_lim (fun u => 1 - (u / t + 1) * exp (- (u / t))) u (u / (t * t) * exp (- (u / t))).
Proof.
  intro Ht.
  assert (D1 : derivable_pt_lim (fun u => u / t + 1) u (/ t)).
  { intros eps He. exists (mkposreal 1 Rlt_0_1). intros h Hh _. replace (((u + h) / t + 1 - (u / t + 1)) / h - / t) with 0 by (field; split; assumption).
    rewrite Rabs_R0. exact He. }
  assert (D2 : derivable_pt_lim (fun u => - (u / t)) u (- / t)).
  { intros eps He. exists (mkposreal 1 Rlt_0_1). intros h Hh _. replace ((- ((u + h) / t) - - (u / t)) / h - - / t) with 0 by (field; split; assumption).
    rewrite Rabs_R0. exact He. }
  pose proof (derivable_pt_lim_comp _ exp u _ _ D2 (derivable_pt_lim_exp _)) as D3.
  pose proof (derivable_pt_lim_mult _ _ u _ _ D1 D3) as D4.
  pose proof (derivable_pt_lim_minus (fun _ => 1) _ u 0 _ (derivable_pt_lim_const 1 u) D4) as D5.
  replace (u / (t * t) * exp (- (u / t))) with
    (0 - (/ t * comp exp (fun u0 : R => - (u0 / t)) u + (u / t + 1) * (exp (- (u / t)) * - / t))); [exact D5|].
  unfold comp. field. exact Ht.
Qed.
Lemma prim_deriv tot cs ts u : Forall (fun t => 0 < t) ts ->
  derivable_pt_lim (fun u => total (map2 (fun c tim => c / tot * (1 - (u / tim + 1) * exp (- (u / tim)))) cs ts)) u
    (total (map2 (fun c tim => u * (c / tot / (tim * tim)) * exp (- (u / tim))) cs ts)).
Proof.
  intro Hts. revert cs. induction Hts as [|t ts Ht Hts IH]; intros [|c cs]; try (cbn [map2 total]; apply derivable_pt_lim_const). cbn [map2 total].
  apply (derivable_pt_lim_plus (fun u => c / tot * (1 - (u / t + 1) * exp (- (u / t))))); [|apply IH].
  replace (u * (c / tot / (t * t)) * exp (- (u / t))) with (c / tot * (u / (t * t) * exp (- (u / t)))) by (unfold Rdiv; ring).
  apply (derivable_pt_lim_scal (fun u => 1 - (u / t + 1) * exp (- (u / t)))). apply term_deriv. lra.
Qed.
Lemma prim_lim tot cs ts : Forall (fun t => 0 < t) ts -> length cs = length ts ->
  tends_to (fun u => total (map2 (fun c tim => c / tot * (1 - (u / tim + 1) * exp (- (u / tim)))) cs ts)) (total cs / tot).
Proof.
  intro Hts. revert cs. induction Hts as [|t ts Ht Hts IH]; intros [|c cs] Hl; cbn [length] in Hl; try lia.
  - cbn [map2 total]. replace (0 / tot) with 0 by (unfold Rdiv; ring). apply tends_const.
  - cbn [map2 total]. replace ((c + total cs) / tot) with (c / tot * (1 + -1 * 0) + total cs / tot) by (unfold Rdiv; ring).
    apply (tends_add (fun u => c / tot * (1 - (u / t + 1) * exp (- (u / t))))); [|apply IH; lia]. apply tends_scale.
    apply (tends_ext (fun u => 1 + -1 * ((u / t + 1) * exp (- (u / t))))); [intro; ring|]. apply tends_add; [apply tends_const|]. apply tends_scale.
    apply (tends_arg (fun x => (x + 1) * exp (- x))); [exact Ht|apply tends_decay].
Qed.
Lemma prim_zero tot cs ts : total (map2 (fun c tim => c / tot * (1 - (0 / tim + 1) * exp (- (0 / tim)))) cs ts) = 0.
Proof.
  revert ts. induction cs as [|c cs IH]; intros [|t ts]; try reflexivity. cbn [map2 total]. rewrite IH.
  replace (0 / t) with 0 by (unfold Rdiv; ring). rewrite Ropp_0, exp_0. ring.
Qed.
Lemma rb2_integral cs ts idtm : 0 < idtm -> total cs <> 0 -> Forall (fun t => 0 < t) ts -> length cs = length ts ->
  exists F, F 0 = 0 /\ (forall it, derivable_pt_lim F it (rb_function2 it cs ts idtm)) /\ tends_to F idtm.
Proof.
  intros Hid Hs Hts Hl. exists (fun it => idtm * rb_prim cs ts (it / idtm)). split; [|split].
  - replace (0 / idtm) with 0 by (unfold Rdiv; ring). unfold rb_prim. rewrite prim_zero. ring.
  - intro it. rewrite rb_eq. 
    assert (D1 : derivable_pt_lim (fun u => u / idtm) it (/ idtm)).
    { intros eps He. exists (mkposreal 1 Rlt_0_1). intros h Hh _. replace (((it + h) / idtm - it / idtm) / h - / idtm) with 0 by (field; split; lra).
      rewrite Rabs_R0. exact He. }
    pose proof (derivable_pt_lim_comp _ (rb_prim cs ts) it _ _ D1 (prim_deriv (total cs) cs ts (it / idtm) Hts)) as D2.
    pose proof (derivable_pt_lim_scal _ idtm it _ D2) as D3.
    match type of D3 with derivable_pt_lim _ _ ?v => match goal with |- derivable_pt_lim _ _ ?w => replace w with v by (field; lra) end end.
    exact D3.
  - cut (tends_to (fun it => idtm * rb_prim cs ts (it / idtm)) (idtm * (total cs / total cs)));
      [replace (idtm * (total cs / total cs)) with idtm by (field; exact Hs); tauto|]. apply tends_scale.
    apply tends_arg; [exact Hid|]. apply prim_lim; assumption.
Qed.
Lemma rb2_scale k it cs ts idtm : k <> 0 -> total cs <> 0 -> rb_function2 it (map (Rmult k) cs) ts idtm = rb_function2 it cs ts idtm.
Proof.
  intros Hk Hs. rewrite !rb_eq, total_scale, map2_map_l. f_equal. apply map2_ext. intros x y. f_equal. f_equal. unfold Rdiv. rewrite Rinv_mult. 
  replace (k * x * (/ k * / total cs)) with (k * / k * (x * / total cs)) by ring. rewrite Rinv_r by exact Hk. ring.
Qed.
Lemma rs_zero idtm : idtm <> 0 -> rs_function (0 : R) idtm = 1.
Proof.
  intro H. unfold rs_function. cbv zeta. rnum. replace (0 / idtm) with 0 by (unfold Rdiv; ring). destruct (Rlt_dec 0 2); [|lra].
  rewrite !Ropp_0. unfold Rdiv at 3 6 9 12. rewrite !Rmult_0_l, !exp_0. rdec. lra.
Qed.
Lemma rb_zero idtm : idtm <> 0 -> rb_function (0 : R) idtm = - (36 / 10000000).
Proof.
  intro H. unfold rb_function. cbv zeta. rnum. replace (0 / idtm) with 0 by (unfold Rdiv; ring).
  rewrite !Rmult_0_r. replace (- 0 / 20) with 0 by lra. replace (0 / 120) with 0 by lra. replace (- 0 / 100) with 0 by lra. rewrite !exp_0. rdec. lra.
Qed.
Lemma check_iff cs ts (rs : bool) : check_array_consistency cs ts rs = true <->
  length cs = (length ts + (if rs then 1 else 0))%nat /\ Forall (fun t => 0 <= t) ts /\ Forall (fun c => 0 <= c) cs.
Proof.
  unfold check_array_consistency. rewrite !andb_true_iff, !negb_true_iff.
  assert (E : forall l, existsb (fun x : R => nltb x (nofZ 0)) l = false <-> Forall (fun t => 0 <= t) l).
  { induction l as [|x l IH]; cbn [existsb]; [split; [constructor|reflexivity]|]. rewrite orb_false_iff, IH. rnum.
    destruct (Rlt_dec x 0) as [L|L]; split; intro H.
    - destruct H; discriminate.
    - inversion H; lra.
    - constructor; [lra|apply H].
    - inversion H; split; [reflexivity|assumption]. }
  rewrite !E. destruct rs; rewrite Nat.eqb_eq; [tauto|]. rewrite Nat.add_0_r. tauto.
Qed.
Lemma rs_all c0 cs ts idtm : 0 < idtm -> Forall (fun c => 0 <= c) (c0 :: cs) -> 0 < total (c0 :: cs) ->
  Forall (fun t => 0 < t) ts -> length cs = length ts ->
  let f it := rs_function2 it (c0 :: cs) ts idtm in
  f 0 = 1 /\ nonincreasing f /\ (forall it, c0 / total (c0 :: cs) <= f it) /\ tends_to f (c0 / total (c0 :: cs)) /\
  (forall k it, k <> 0 -> rs_function2 it (map (Rmult k) (c0 :: cs)) ts idtm = f it).
Proof.
  intros H1 H2 H3 H4 H5. cbv zeta. split; [apply rs2_zero; assumption|]. split; [apply rs2_mono; assumption|].
  split; [intro; apply rs2_low; assumption|]. split; [apply rs2_lim; assumption|]. intros k it Hk. apply rs2_scale; [exact Hk|lra].
Qed.
Lemma rb_all cs ts idtm : 0 < idtm -> Forall (fun c => 0 <= c) cs -> 0 < total cs ->
  Forall (fun t => 0 < t) ts -> length cs = length ts ->
  let f it := rb_function2 it cs ts idtm in
  f 0 = 0 /\ (forall it, 0 <= it -> 0 <= f it) /\
  (exists F, F 0 = 0 /\ (forall it, derivable_pt_lim F it (f it)) /\ tends_to F idtm) /\
  (forall k it, k <> 0 -> rb_function2 it (map (Rmult k) cs) ts idtm = f it).
Proof.
  intros H1 H2 H3 H4 H5. cbv zeta. split; [apply rb2_zero|]. split; [intros; apply rb2_nonneg; assumption|].
  split; [apply rb2_integral; try assumption; lra|]. intros k it Hk. apply rb2_scale; [exact Hk|lra].
Qed.
Lemma rb_example : Forall (fun c => 0 <= c) [1 / 2; 1 / 4; 1 / 4] /\ 0 < total [1 / 2; 1 / 4; 1 / 4] /\
  Forall (fun t => 0 < t) [5 / 2; 10; 60] /\ rb_function2 24 [1] [1] 24 = exp (-1).
Proof.
  split; [repeat constructor; lra|]. split; [cbn [total]; lra|]. split; [repeat constructor; lra|].
  rewrite rb_eq. cbn [map2 total]. replace (- (24 / 24 / 1)) with (-1) by field. field.
Qed.
