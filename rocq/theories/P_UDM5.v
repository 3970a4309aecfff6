(** * P_UDM5: invariants, rest state, ramp, aggregates, heat content to 700 m *)
From Coq Require Import Reals ZArith List Lra Lia Bool.
From Verif Require Import Num M_TwoLayer M_UDM Spec_TwoLayer Spec_TwoLayerRuns Spec_UDM Spec_UDMRuns P_TwoLayer P_UDM P_UDM2 P_UDM3 P_UDM4.
Import ListNotations.
Open Scope R_scope.

(** ** refreshed is an invariant *)
Lemma init_refreshed p : refreshed p (ud_init p).
Proof.
  constructor; unfold ud_init; cbn [u_fnx u_fsx u_gamn u_gams u_rlamda u_v1 u_v2 u_tn u_ts];
    try reflexivity; try apply tab_length.
  unfold gams_of. rnum. rewrite Rmult_1_l. reflexivity.
Qed.
Lemma set_feedback_refreshed p s w : refreshed p s -> refreshed p (ud_set_feedback p s w).
Proof.
  intro H. unfold ud_set_feedback. destruct (neqb _ _); [exact H|]. destruct H.
  constructor; unfold with_feedback; cbn [u_fnx u_fsx u_gamn u_gams u_rlamda u_v1 u_v2 u_tn u_ts];
    try reflexivity; try assumption.
  unfold gams_of. rnum. rewrite Rmult_1_l. reflexivity.
Qed.
Lemma budget_refreshed p s a b c d : refreshed p s -> refreshed p (fst (ud_energy_budget p s a b c d)).
Proof.
  intro H. pose proof (year_acc_ok p s a b c d H (ldtime p)) as (Hv & H1 & H2). destruct H.
  constructor; unfold ud_energy_budget; cbn [fst u_fnx u_fsx u_gamn u_gams u_rlamda u_v1 u_v2 u_tn u_ts]; assumption.
Qed.
Lemma year_refreshed p s i : refreshed p s -> refreshed p (fst (ud_year p s i)).
Proof. intro H. apply budget_refreshed, set_feedback_refreshed, H. Qed.
Lemma states_refreshed p ins n : refreshed p (ud_states p ins (ud_init p) n).
Proof. induction n; [apply init_refreshed|]. cbn [ud_states]. apply year_refreshed. exact IHn. Qed.
Lemma set_feedback_rlamda p s w :
  u_rlamda (ud_set_feedback p s w) = if Req_EM_T (delta_aero p) 0 then u_rlamda s else 1 / lambda p + w * delta_aero p.
Proof. unfold ud_set_feedback. rnum. destruct (Req_EM_T (delta_aero p) 0); reflexivity. Qed.

(** ** heat content *)
Lemma rsum_tab n f : rsum (tab n f) = sumn f n.
Proof.
  revert f. induction n as [|n IH]; intro f; [reflexivity|]. rewrite tab_S. cbn [rsum fold_right].
  fold (rsum (tab n (fun i => f (S i)))). rewrite IH. clear IH.
  induction n as [|n IH]; [cbn [sumn]; ring|]. cbn [sumn] in *. rewrite <- Rplus_assoc, IH. reflexivity.
Qed.
Lemma nsum_tab n f : nsum (tab n f) = sumn f n.
Proof. rewrite nsum_rsum. apply rsum_tab. Qed.
Lemma unit_eq : nmul (nmul (nofZ 1030) (dec 3997 22)) (nofZ (255 * 10 ^ 12)) = ohc_unit :> R.
Proof. unfold ohc_unit. rnum. rdec. change (255 * 1000000000000)%Z with 255000000000000%Z. reflexivity. Qed.
Lemma hav_eq (p : ud_pam R) tn ts :
  havtemp p tn ts = tab (lm p) (fun i => ohc_unit * thick p i * (nth i tn 0 * foan p + nth i ts 0 * foas p)).
Proof.
  unfold havtemp. apply tab_ext. intros i Hi. rewrite thick_dz.
  change (nmul (nmul (nofZ 1030) (dec 3997 22)) (nofZ (255 * 10 ^ 12)) : R) with
         (nmul (nmul (nofZ 1030) (dec 3997 22)) (nofZ (255 * 10 ^ 12)) : R).
  rewrite unit_eq. rnum. reflexivity.
Qed.
Lemma sumn_scal c f n : sumn (fun i => c * f i) n = c * sumn f n.
Proof. induction n; cbn [sumn]; [ring|]. rewrite IHn. ring. Qed.
Lemma sumn_add f g n : sumn (fun i => f i + g i) n = sumn f n + sumn g n.
Proof. induction n; cbn [sumn]; [ring|]. rewrite IHn. ring. Qed.
Lemma ohctot_ocean p tn ts : ohctot p tn ts = ohc_unit * ocean p tn ts.
Proof.
  unfold ohctot. rewrite hav_eq, nsum_tab. unfold ocean, column.
  rewrite <- (sumn_scal (foan p)), <- (sumn_scal (foas p)), <- sumn_add, <- sumn_scal.
  apply sumn_ext. intros. ring.
Qed.

(** ** ramp *)
Lemma ramp_eq p im f prev : (1 <= ldtime p)%nat ->
  ramp p im f prev = prev + INR (im + 1) / INR (ldtime p) * (f - prev).
Proof.
  intro H. pose proof (ld_pos p H). unfold ramp. rnum. rewrite !IZR_nat. field. lra.
Qed.
Lemma ramp_sum p f prev n : (1 <= ldtime p)%nat ->
  sumn (fun k => ramp p k f prev) n = INR n * prev + INR n * (INR n + 1) / (2 * INR (ldtime p)) * (f - prev).
Proof.
  intro H. pose proof (ld_pos p H). induction n as [|n IH].
  - cbn [sumn INR]. field. lra.
  - cbn [sumn]. rewrite IH, ramp_eq by exact H. rewrite S_INR, plus_INR. cbn [INR]. field. lra.
Qed.
Lemma sumn_nth (v : list R) : sumn (fun k => nth k v 0) (length v) = rsum v.
Proof. rewrite <- rsum_tab, tab_nth. reflexivity. Qed.
Lemma sumn_app f n m : sumn f (n + m) = sumn f n + sumn (fun k => f (n + k)%nat) m.
Proof.
  induction m as [|m IH]; [rewrite Nat.add_0_r; cbn [sumn]; ring|].
  rewrite Nat.add_succ_r. cbn [sumn]. rewrite IH. ring.
Qed.
Lemma volc_sum (v : list R) (w : list R) m : length w = length v -> (length v <> 0)%nat ->
  sumn (fun k => nth (Nat.modulo k (length v)) w 0) (m * length v) = INR m * rsum w.
Proof.
  intros Hw Hv. induction m as [|m IH]; [cbn; ring|].
  replace (S m * length v)%nat with (length v + m * length v)%nat by lia. rewrite sumn_app.
  replace (sumn (fun k => nth ((length v + k) mod length v) w 0) (m * length v)) with
          (sumn (fun k => nth (k mod length v) w 0) (m * length v)).
  - rewrite IH. rewrite S_INR. replace (sumn (fun k => nth (k mod length v) w 0) (length v)) with (rsum w); [ring|].
    rewrite <- sumn_nth, Hw. apply sumn_ext. intros i Hi. rewrite Nat.mod_small by exact Hi. reflexivity.
  - apply sumn_ext. intros i Hi. f_equal. rewrite <- Nat.add_mod_idemp_l by exact Hv. rewrite Nat.mod_same by exact Hv. reflexivity.
Qed.

(** ** aggregates *)
Lemma blend_acc p s a b c d n :
  let x := year_acc p s a b c d n in
  x_tempn x = foan p * x_sn x + (1 - foan p) * x_an x /\ x_temps x = foas p * x_ss x + (1 - foas p) * x_as x.
Proof.
  cbn zeta. induction n as [|n [IH1 IH2]].
  - cbn. lra.
  - rewrite year_acc_S. set (x := year_acc p s a b c d n) in *. unfold substep.
    cbn [x_tempn x_temps x_sn x_ss x_an x_as].
    rewrite IH1, IH2. rnum. unfold Rdiv. split; ring.
Qed.
