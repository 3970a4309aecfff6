(** * P_Forc2: perturbations and the result of conc2forc (C43-C46, C48) *)
From Coq Require Import Reals Lra Psatz.
From Verif Require Import PyBase PyBaseFacts Num M_Gas M_Forcing Spec_Gas Spec_Forc P_Gas2 P_Gas3 P_Gas4 P_Forc.
Open Scope R_scope.

Lemma sum_over_pick (v : R) k' l : NoDup l -> sum_over (fun k => if String.eqb k' k then v else 0) l = if smem k' l then v else 0.
Proof.
  induction l as [|k l IH]; intros HN; cbn; [reflexivity|]. inversion HN as [|? ? Hni HN']; subst. rewrite IH by auto.
  destruct (String.eqb_spec k' k) as [->|Hne]; cbn [orb].
  - destruct (smem k l) eqn:E; [apply smem_In in E; contradiction|]. ring.
  - unfold smem. ring.
Qed.
Lemma sum_over_scale (c : R) g l : sum_over (fun k => c * g k) l = c * sum_over g l.
Proof. induction l as [|k l IH]; cbn; [ring|]. rewrite IH. ring. Qed.

Record pert_rel (p : hpam R) (y : Z) (pt : ptable R) (a a' : run4 R) : Prop := {
  pr_len : same_lengths (s_forc (r_st a)) (s_forc (r_st a'));
  pr_gas : s_gas (r_st a') = s_gas (r_st a);
  pr_conc : s_conc (r_st a') = s_conc (r_st a);
  pr_rows : forall k j, j <> forc_ix p y -> forc_at (s_forc (r_st a')) k j = forc_at (s_forc (r_st a)) k j;
  pr_at : forall k, In k (dkeys (s_forc (r_st a))) ->
    forc_at (s_forc (r_st a')) k (forc_ix p y) = forc_at (s_forc (r_st a)) k (forc_ix p y) + pert_sum pt y k;
  pr_tot : r_tot a' = r_tot a + sum_over (pert_sum pt y) (dkeys (s_forc (r_st a)));
  pr_nh : r_nh a' = r_nh a + sum_over (fun k => north_share k * pert_sum pt y k) (dkeys (s_forc (r_st a)));
  pr_sh : r_sh a' = r_sh a + sum_over (fun k => (2 - north_share k) * pert_sum pt y k) (dkeys (s_forc (r_st a)));
  pr_aero : r_aero a' = r_aero a }.

Lemma pert_all (p : hpam R) y pt : forall a a', NoDup (dkeys (s_forc (r_st a))) ->
  add_forcing_pert p pt y a = Ok a' -> pert_rel p y pt a a'.
Proof.
  unfold add_forcing_pert. induction pt as [|[[y' k'] v] pt IH]; intros a a' HN H; cbn [filter fst] in H.
  - cbn [fold_left] in H. inversion H; subst. split; auto; cbn [pert_sum].
    + apply same_lengths_refl.
    + intros; ring.
    + rewrite sum_over_0 by auto; ring.
    + rewrite sum_over_0 by (intros; ring); ring.
    + rewrite sum_over_0 by (intros; ring); ring.
  - destruct (Z.eqb y' y) eqn:EY.
    2:{ destruct (IH _ _ HN H) as [X1 X2 X3 X4 X5 X6 X7 X8 X9]. split; auto.
        - intros k Hk. rewrite X5 by auto. cbn [pert_sum]. rewrite EY. cbn [andb]. ring.
        - rewrite X6. f_equal. apply sum_over_ext. intros. cbn [pert_sum]. rewrite EY. cbn [andb]. ring.
        - rewrite X7. f_equal. apply sum_over_ext. intros. cbn [pert_sum]. rewrite EY. cbn [andb]. ring.
        - rewrite X8. f_equal. apply sum_over_ext. intros. cbn [pert_sum]. rewrite EY. cbn [andb]. ring. }
    cbn [fold_left] in H. unfold pert_turn at 2 in H. cbn [rbind] in H.
    destruct (dmem (s_forc (r_st a)) k') eqn:EM.
    2:{ destruct (IH _ _ HN H) as [X1 X2 X3 X4 X5 X6 X7 X8 X9].
        assert (Hno : ~ In k' (dkeys (s_forc (r_st a)))) by (apply dget_None_keys, dmem_false; auto).
        assert (HP : forall k, In k (dkeys (s_forc (r_st a))) -> pert_sum ((y', k', v) :: pt) y k = pert_sum pt y k).
        { intros k Hk. cbn [pert_sum]. rewrite EY. cbn [andb]. destruct (String.eqb_spec k' k); [subst; contradiction|ring]. }
        split; auto.
        - intros k Hk. rewrite X5, HP by auto. reflexivity.
        - rewrite X6. f_equal. apply sum_over_ext. intros. rewrite HP; auto.
        - rewrite X7. f_equal. apply sum_over_ext. intros. rewrite HP; auto.
        - rewrite X8. f_equal. apply sum_over_ext. intros. rewrite HP; auto. }
    destruct (forc_get p (r_st a) k' y) as [old|] eqn:EG; cbn [rbind] in H.
    2:{ rewrite fold_err in H by reflexivity. discriminate. }
    destruct (forc_set p (r_st a) k' y (nadd old v)) as [s1|] eqn:ES; cbn [rbind] in H.
    2:{ rewrite fold_err in H by reflexivity. discriminate. }
    destruct (forc_get_at _ _ _ _ _ EG) as [Hin Hold].
    destruct (forc_set_at _ _ _ _ _ _ ES) as [G1 [C1 [L1 [I1 [O1 [A1 _]]]]]].
    assert (K1 : dkeys (s_forc s1) = dkeys (s_forc (r_st a))) by apply L1.
    match type of H with fold_left _ _ (Ok ?b) = _ => set (b0 := b) in * end.
    assert (HN' : NoDup (dkeys (s_forc (r_st b0)))) by (cbn; rewrite K1; exact HN).
    destruct (IH b0 a' HN' H) as [X1 X2 X3 X4 X5 X6 X7 X8 X9].
    cbn [r_st r_tot r_nh r_sh r_aero] in *. unfold b0 in X1, X2, X3, X4, X5, X6, X7, X8, X9. cbn [r_st r_tot r_nh r_sh r_aero] in *.
    assert (HP : forall k, pert_sum ((y', k', v) :: pt) y k = (if String.eqb k' k then v else 0) + pert_sum pt y k).
    { intros k. cbn [pert_sum]. rewrite EY. reflexivity. }
    assert (HS : smem k' (dkeys (s_forc (r_st a))) = true) by (apply smem_In; exact Hin).
    rewrite hemi_share in X7, X8. cbn [fst snd] in X7, X8. rewrite K1 in X5, X6, X7, X8.
    split; auto.
    + eapply same_lengths_trans; eauto.
    + congruence.
    + congruence.
    + intros k j Hj. rewrite X4, A1 by auto. destruct (Nat.eqb_spec j (forc_ix p y)); [congruence|]. rewrite andb_false_r. reflexivity.
    + intros k Hk. rewrite X5 by auto. rewrite A1, Nat.eqb_refl, andb_true_r, HP, (eqb_sym_s k k').
      destruct (String.eqb_spec k' k); [subst k'; rewrite Hold|]; rnum; ring.
    + rewrite X6. rewrite (sum_over_ext (pert_sum ((y', k', v) :: pt) y) (fun k => (if String.eqb k' k then v else 0) + pert_sum pt y k)) by auto.
      rewrite (sum_over_plus (fun k => if String.eqb k' k then v else 0)), sum_over_pick, HS by auto. rnum. ring.
    + rewrite X7. rewrite (sum_over_ext (fun k => north_share k * pert_sum ((y', k', v) :: pt) y k)
         (fun k => (if String.eqb k' k then north_share k' * v else 0) + north_share k * pert_sum pt y k)).
      2:{ intros k _. rewrite HP. destruct (String.eqb_spec k' k); [subst|]; ring. }
      rewrite (sum_over_plus (fun k => if String.eqb k' k then north_share k' * v else 0)), sum_over_pick, HS by auto. ring.
    + rewrite X8. rewrite (sum_over_ext (fun k => (2 - north_share k) * pert_sum ((y', k', v) :: pt) y k)
         (fun k => (if String.eqb k' k then (2 - north_share k') * v else 0) + (2 - north_share k) * pert_sum pt y k)).
      2:{ intros k _. rewrite HP. destruct (String.eqb_spec k' k); [subst|]; ring. }
      rewrite (sum_over_plus (fun k => if String.eqb k' k then (2 - north_share k') * v else 0)), sum_over_pick, HS by auto. ring.
Qed.

Lemma nsum_acc (l : list R) : forall a, fold_left Rplus l a = a + fold_left Rplus l 0.
Proof.
  induction l as [|x l IH]; intros a; cbn; [ring|]. rewrite IH, (IH (0 + x)). ring.
Qed.
Lemma tot_vanilla_sum (erf : frame R) y pre : wf (fr_cols erf) -> tot_vanilla erf y = Ok pre ->
  pre = sum_over (fun k => cell erf k y) (dkeys (fr_cols erf)).
Proof.
  unfold tot_vanilla. intros HW H.
  destruct (mapM _ (fr_cols erf)) as [vs|] eqn:EM; cbn [rbind] in H; [|discriminate]. inversion H; subst. clear H.
  assert (HC : forall k v, In (k, v) (fr_cols erf) -> cell erf k y = match yget (combine (fr_index erf) v) y with Some x => x | None => 0 end).
  { intros k v Hin. unfold cell, fr_get, fr_col, key. rewrite (wf_In_dget _ _ _ HW Hin). cbn [rbind].
    destruct (yget _ y); reflexivity. }
  clear HW. revert vs EM. induction (fr_cols erf) as [|[k v] l IH]; intros vs EM; cbn [mapM] in EM.
  - inversion EM; subst. reflexivity.
  - cbn [snd] in EM. unfold key in EM at 1. destruct (yget (combine (fr_index erf) v) y) as [x|] eqn:EY; cbn [rbind] in EM; [|discriminate].
    destruct (mapM _ l) as [ys|] eqn:EM'; cbn [rbind] in EM; [|discriminate]. inversion EM; subst.
    unfold dkeys in *. cbn [map fst sum_over]. rewrite <- (IH ltac:(intros; apply HC; right; auto) ys eq_refl).
    rewrite (HC k v (or_introl eq_refl)), EY. unfold nsum. cbn [fold_left]. rnum. rewrite nsum_acc. ring.
Qed.

Lemma abs_total_fold (p : hpam R) y l : forall s s',
  fold_left (fun acc kv => do s <- acc;
     if String.eqb (fst kv) TOTAL then Ok s
     else do x <- match nth_error (snd kv) (forc_ix p y) with Some x => Ok x | None => Err IndexError end; Ok (nadd s (nabs x))) l (Ok s) = Ok s' ->
  s' = s + sum_over (fun k => Rabs (forc_at l k (forc_ix p y))) [] + 
       fold_right (fun kv acc => (if String.eqb (fst kv) TOTAL then 0 else Rabs (nth (forc_ix p y) (snd kv) 0)) + acc) 0 l.
Proof.
  induction l as [|[k v] l IH]; intros s s' H; cbn [fold_left rbind fst snd] in H.
  - inversion H; subst. cbn. ring.
  - cbn [fold_right fst snd]. destruct (String.eqb k TOTAL).
    + rewrite (IH _ _ H). cbn. ring.
    + destruct (nth_error v (forc_ix p y)) as [x|] eqn:E; cbn [rbind] in H.
      2:{ rewrite fold_err in H by reflexivity. discriminate. }
      rewrite (IH _ _ H). rewrite (nth_error_nth _ _ 0 E). cbn. rnum. ring.
Qed.
Lemma abs_total_sum (p : hpam R) y st s : wf (s_forc st) -> abs_total p y st = Ok s ->
  s = sum_over (fun k => Rabs (forc_at (s_forc st) k (forc_ix p y))) (components (s_forc st)).
Proof.
  intros HW H. unfold abs_total in H. apply abs_total_fold in H. rewrite H. cbn [sum_over]. rnum. rewrite !Rplus_0_l.
  unfold components. rewrite sum_over_filter. unfold dkeys.
  assert (HD : forall k v, In (k, v) (s_forc st) -> forc_at (s_forc st) k (forc_ix p y) = nth (forc_ix p y) v 0).
  { intros k v Hin. unfold forc_at. rewrite (wf_In_dget _ _ _ HW Hin). reflexivity. }
  revert HD. generalize (forc_at (s_forc st)). clear HW H. intros fa HD.
  induction (s_forc st) as [|[k v] l IH]; cbn [fold_right map fst snd sum_over]; [reflexivity|].
  rewrite IH by (intros; apply HD; right; auto). rewrite (HD k v (or_introl eq_refl)).
  destruct (String.eqb k TOTAL); cbn [negb]; ring.
Qed.

Lemma sum_main g l : NoDup l -> (forall k, main3 k = true -> In k l) ->
  sum_over (fun k => if main3 k then g k else 0) l = g "CO2" + g "N2O" + g "CH4".
Proof.
  intros HN HI.
  rewrite (sum_over_ext _ (fun k => (if String.eqb "CO2" k then g "CO2" else 0) + ((if String.eqb "N2O" k then g "N2O" else 0) + (if String.eqb "CH4" k then g "CH4" else 0)))).
  - rewrite (sum_over_plus (fun k => if String.eqb "CO2" k then g "CO2" else 0)).
    rewrite (sum_over_plus (fun k => if String.eqb "N2O" k then g "N2O" else 0)).
    rewrite !sum_over_pick by auto. assert (HS : forall k, main3 k = true -> smem k l = true) by (intros k Hk; apply smem_In; auto).
    rewrite !HS by reflexivity. ring.
  - intros k _. unfold main3, smem. cbn [existsb]. rewrite !(eqb_sym_s k).
    destruct (String.eqb_spec "CO2" k); [subst; cbn; ring|]. destruct (String.eqb_spec "N2O" k); [subst; cbn; ring|].
    destruct (String.eqb_spec "CH4" k); [subst; cbn; ring|]. cbn. ring.
Qed.

Section Result.
Variables (p : hpam R) (conc_in emis erf : frame R) (pert : option (ptable R)) (y : Z) (luc sun : R) (st st' : hst R).
Variables (tot nh sh w : R).
Hypothesis (HR : conc2forc p conc_in emis erf pert y luc sun st = Ok ((tot, nh, sh, w), st')).
Hypothesis (HW : wf (s_forc st)).
Notation i := (forc_ix p y).
Notation rows := (pert_rows pert).

(** The stages of the computation. *)
Record stages (t3 : R) (st3 : hst R) (nh3 sh3 : R) (a1 : run4 R) (pre : R) (a2 : run4 R) (s : R) : Prop := {
  sg_three : forc_three_main p y st = Ok (t3, nh3, sh3, st3);
  sg_loop : loop_rel p conc_in emis y luc {| r_tot := t3; r_nh := nh3; r_sh := sh3; r_aero := 0; r_st := st3 |} a1 (dkeys (s_forc st));
  sg_fold : fold_left (tracer_turn p conc_in emis y luc) (dkeys (s_forc st3))
     (Ok {| r_tot := t3; r_nh := nh3; r_sh := sh3; r_aero := 0; r_st := st3 |}) = Ok a1;
  sg_pre : tot_vanilla erf y = Ok pre;
  sg_add : match pert with
           | Some pt => add_forcing_pert p pt y {| r_tot := r_tot a1 + pre; r_nh := r_nh a1 + pre; r_sh := r_sh a1 + pre; r_aero := r_aero a1; r_st := r_st a1 |}
           | None => Ok {| r_tot := r_tot a1 + pre; r_nh := r_nh a1 + pre; r_sh := r_sh a1 + pre; r_aero := r_aero a1; r_st := r_st a1 |}
           end = Ok a2;
  sg_pert : pert_rel p y rows {| r_tot := r_tot a1 + pre; r_nh := r_nh a1 + pre; r_sh := r_sh a1 + pre; r_aero := r_aero a1; r_st := r_st a1 |} a2;
  sg_none : just_one p = None -> tot = r_tot a2 /\ nh = r_nh a2 + sun /\ sh = r_sh a2 + sun;
  sg_some : forall j, just_one p = Some j -> In j (dkeys (s_forc st)) /\ tot = forc_at (s_forc (r_st a2)) j i /\
     nh = north_share j * tot + sun /\ sh = (2 - north_share j) * tot + sun;
  sg_set : forc_set p (r_st a2) TOTAL y tot = Ok st';
  sg_abs : abs_total p y st' = Ok s;
  sg_w : w = if Rlt_dec 0 s then r_aero a1 / s else 0 }.

Lemma stages_exist : exists t3 st3 nh3 sh3 a1 pre a2 s, stages t3 st3 nh3 sh3 a1 pre a2 s.
Proof using HR HW.
  pose proof HR as H. unfold conc2forc in H.
  destruct (forc_three_main p y st) as [[[[t3 nh3] sh3] st3]|] eqn:E3; cbn [rbind] in H; [|discriminate].
  pose proof (three_spec _ _ _ _ _ _ _ E3) as S3. cbv zeta in S3. destruct S3 as [G3 [C3 [L3 [O3 [R3 [I3 _]]]]]].
  assert (K3 : dkeys (s_forc st3) = dkeys (s_forc st)) by apply L3.
  destruct (fold_left _ (dkeys (s_forc st3)) _) as [a1|] eqn:EL; cbn [rbind] in H; [|discriminate].
  pose proof EL as EL0. apply loop_all in EL; [|rewrite K3; exact HW]. rewrite K3 in EL.
  destruct (tot_vanilla erf y) as [pre|] eqn:EP; cbn [rbind] in H; [|discriminate].
  pose proof (lr_len _ _ _ _ _ _ _ _ EL) as L1. cbn [r_st] in L1.
  match type of H with rbind (match pert with Some pt => add_forcing_pert p pt y ?b | None => _ end) _ = _ => set (b0 := b) in * end.
  assert (HP : exists a2, (match pert with Some pt => add_forcing_pert p pt y b0 | None => Ok b0 end) = Ok a2 /\ pert_rel p y rows b0 a2).
  { destruct pert as [pt|]; cbn [pert_rows].
    - destruct (add_forcing_pert p pt y b0) as [a2|] eqn:EA; cbn [rbind] in H; [|discriminate]. exists a2. split; auto.
      apply pert_all; auto. unfold b0. cbn [r_st]. destruct L1 as [-> _]. rewrite K3. exact HW.
    - exists b0. split; auto. split; auto; cbn [pert_sum].
      + apply same_lengths_refl.
      + intros; ring.
      + rewrite sum_over_0 by auto; ring.
      + rewrite sum_over_0 by (intros; ring); ring.
      + rewrite sum_over_0 by (intros; ring); ring. }
  destruct HP as [a2 [HP HPR]]. rewrite HP in H. cbn [rbind] in H.
  assert (K2 : dkeys (s_forc (r_st a2)) = dkeys (s_forc st)).
  { destruct (pr_len _ _ _ _ _ HPR) as [-> _]. unfold b0. cbn [r_st]. destruct L1 as [-> _]. exact K3. }
  exists t3, st3, nh3, sh3, a1, pre, a2.
  destruct (just_one p) as [j|] eqn:EJ.
  - destruct (forc_get p (r_st a2) j y) as [tj|] eqn:EG; cbn [rbind] in H; [|discriminate].
    cbn [r_st r_tot r_nh r_sh r_aero] in H.
    destruct (forc_set p (r_st a2) "Total_forcing" y tj) as [s1|] eqn:ES; cbn [rbind] in H; [|discriminate].
    destruct (abs_total p y s1) as [s|] eqn:EA; cbn [rbind] in H; [|discriminate].
    destruct (forc_get_at _ _ _ _ _ EG) as [Ij Fj]. rewrite K2 in Ij.
    rewrite hemi_share in H. cbn [fst snd] in H.
    inversion H as [[H1 H2 H3 H4 H5]]. exists s.
    split; auto; try congruence.
    + intros j' E. rewrite EJ in E. inversion E; subst j'. rewrite <- H2, <- H3. split; [auto|]. split; [congruence|]. rnum. rewrite ?H1. split; ring.
    + rewrite <- H1, <- H5. exact ES.
    + rewrite <- H4, (pr_aero _ _ _ _ _ HPR). unfold b0. rnum. destruct (Rlt_dec 0 s); reflexivity.
  - cbn [rbind] in H.
    destruct (forc_set p (r_st a2) "Total_forcing" y (r_tot a2)) as [s1|] eqn:ES; cbn [rbind] in H; [|discriminate].
    destruct (abs_total p y s1) as [s|] eqn:EA; cbn [rbind] in H; [|discriminate].
    inversion H as [[H1 H2 H3 H4 H5]]. exists s.
    split; auto; try congruence.
    + rewrite <- H1, <- H5. exact ES.
    + rewrite <- H4, (pr_aero _ _ _ _ _ HPR). unfold b0. rnum. destruct (Rlt_dec 0 s); reflexivity.
Qed.

(** *** What follows for the result *)
Notation f' := (s_forc st').

Lemma total_result :
  same_lengths (s_forc st) f' /\ s_gas st' = s_gas st /\
  (forall k j, j <> i -> forc_at f' k j = forc_at (s_forc st) k j) /\
  forc_at f' TOTAL i = tot.
Proof using HR HW.
  destruct stages_exist as [t3 [st3 [nh3 [sh3 [a1 [pre [a2 [s [S3 SL SF SP SD SR SN SS SE SA SW]]]]]]]]].
  pose proof (three_spec _ _ _ _ _ _ _ S3) as X. cbv zeta in X. destruct X as [G3 [C3 [L3 [O3 [R3 _]]]]].
  destruct SL as [L1 G1 _ _ _ R1 _ _ _ _ _]. destruct SR as [L2 G2 _ R2 _ _ _ _ _]. cbn [r_st] in *.
  destruct (forc_set_at _ _ _ _ _ _ SE) as [G4 [_ [L4 [_ [_ [A4 _]]]]]].
  split; [eapply same_lengths_trans; [exact L3|]; eapply same_lengths_trans; [exact L1|]; eapply same_lengths_trans; [exact L2|exact L4]|].
  split; [congruence|]. split.
  - intros k j Hj. rewrite A4. destruct (Nat.eqb_spec j i); [congruence|]. rewrite andb_false_r, R2, R1, R3 by auto. reflexivity.
  - rewrite A4, String.eqb_refl, Nat.eqb_refl. reflexivity.
Qed.

(** Components of the year before the perturbations. *)
Lemma split_components (g : string -> R) l : NoDup l -> In TOTAL l ->
  sum_over g (filter (fun k => negb (String.eqb k TOTAL)) l) = sum_over g l - g TOTAL.
Proof.
  intros HN Hin. rewrite sum_over_filter.
  rewrite (sum_over_one g (fun k => if negb (String.eqb k TOTAL) then g k else 0) l TOTAL) by
    (auto; intros k _ Hk; apply String.eqb_neq in Hk; rewrite Hk; reflexivity).
  rewrite String.eqb_refl. cbn [negb]. ring.
Qed.

Lemma component_unknown k0 s q s' : component p conc_in emis y luc k0 s = Ok (q, s') -> dget (s_gas s) k0 = None ->
  k0 <> "LANDUSE" -> is_aerosol k0 = false -> k0 <> "TROP_O3" -> k0 <> "STRAT_H2O" -> q = 0.
Proof.
  unfold component. intros H HG H1 H2 H3 H4. apply String.eqb_neq in H1, H3, H4. rewrite H1, H2, HG, H3, H4 in H.
  inversion H. reflexivity.
Qed.

Hypothesis (HT : dget (s_gas st) TOTAL = None).
Hypothesis (HP : forall y' v, ~ In (y', TOTAL, v) rows).

Lemma pert_total : pert_sum rows y TOTAL = 0.
Proof using HP.
  induction rows as [|[[y' k'] v] l IH]; cbn [pert_sum]; [reflexivity|].
  rewrite IH by (intros y1 v1 Hin; apply (HP y1 v1); right; exact Hin).
  destruct (String.eqb_spec k' TOTAL) as [->|]; [exfalso; apply (HP y' v); left; reflexivity|]. rewrite andb_false_r. ring.
Qed.

Lemma sums (share : string -> R) (vn v3 v1 v2 : R) t3 st3 nh3 sh3 a1 pre a2 s :
  stages t3 st3 nh3 sh3 a1 pre a2 s -> (forall k, main3 k = true -> share k = 1) ->
  v3 = t3 -> v1 = v3 + sum_over (fun k => share k * counted p y (s_forc (r_st a1)) k) (dkeys (s_forc st)) ->
  v2 = v1 + pre + sum_over (fun k => share k * pert_sum rows y k) (dkeys (s_forc st)) -> vn = v2 ->
  vn = sum_over (fun k => share k * forc_at f' k i) (components f') + pre.
Proof using HW HT HP.
  intros [S3 SL SF SP SD SR SN SS SE SA SW] Hs -> -> -> ->.
  pose proof (three_spec _ _ _ _ _ _ _ S3) as X. cbv zeta in X. destruct X as [G3 [C3 [L3 [O3 [R3 [I3 [T3 _]]]]]]].
  destruct SL as [L1 G1 _ _ O1 R1 T1 _ _ _ Z1]. destruct SR as [L2 G2 _ R2 A2 T2 _ _ _]. cbn [r_st r_tot] in *.
  destruct (forc_set_at _ _ _ _ _ _ SE) as [G4 [_ [L4 [I4 [_ [A4 _]]]]]].
  assert (K3 : dkeys (s_forc st3) = dkeys (s_forc st)) by apply L3.
  assert (K1 : dkeys (s_forc (r_st a1)) = dkeys (s_forc st)) by (rewrite <- K3; apply L1).
  assert (K2 : dkeys (s_forc (r_st a2)) = dkeys (s_forc st)) by (rewrite <- K1; apply L2).
  assert (K4 : dkeys f' = dkeys (s_forc st)) by (rewrite <- K2; apply L4).
  assert (HIT : In TOTAL (dkeys (s_forc st))) by (rewrite <- K2; exact I4).
  assert (HZ : forc_at (s_forc (r_st a1)) TOTAL i = 0).
  { destruct (Z1 TOTAL HIT eq_refl) as [_ [s0 [q0 [s1 [E1 [E2 [E3 _]]]]]]]. rewrite E2.
    apply (component_unknown _ _ _ _ E1); try discriminate; try reflexivity. rewrite E3, G3. exact HT. }
  unfold components. rewrite K4.
  rewrite (sum_over_ext (fun k => share k * forc_at f' k i) (fun k => share k * (forc_at (s_forc (r_st a1)) k i + pert_sum rows y k))).
  2:{ intros k Hk. apply filter_In in Hk. destruct Hk as [Hk HkT]. rewrite A4. destruct (String.eqb k TOTAL); [discriminate|].
      cbn [andb]. rewrite A2 by (rewrite K1; exact Hk). reflexivity. }
  rewrite (split_components (fun k => share k * (forc_at (s_forc (r_st a1)) k i + pert_sum rows y k))) by auto.
  rewrite HZ, pert_total.
  rewrite (sum_over_ext (fun k => share k * (forc_at (s_forc (r_st a1)) k i + pert_sum rows y k))
     (fun k => (share k * counted p y (s_forc (r_st a1)) k + (if main3 k then forc_at (s_forc (r_st a1)) k i else 0)) + share k * pert_sum rows y k)).
  2:{ intros k _. unfold counted. destruct (main3 k) eqn:EM; [rewrite (Hs k EM)|]; ring. }
  rewrite (sum_over_plus (fun k => share k * counted p y (s_forc (r_st a1)) k + (if main3 k then forc_at (s_forc (r_st a1)) k i else 0))).
  rewrite (sum_over_plus (fun k => share k * counted p y (s_forc (r_st a1)) k)).
  rewrite (sum_main (fun k => forc_at (s_forc (r_st a1)) k i)) by auto.
  assert (E : forall k, main3 k = true -> forc_at (s_forc (r_st a1)) k i = forc_at (s_forc st3) k i).
  { intros k Hk. unfold forc_at. rewrite O1 by auto. reflexivity. }
  rewrite !E by reflexivity. rewrite T3. ring.
Qed.

Lemma c44_total : wf (fr_cols erf) -> just_one p = None -> tot = reported_sum f' erf i y.
Proof using HR HW HT HP.
  intros HE HJ. destruct stages_exist as [t3 [st3 [nh3 [sh3 [a1 [pre [a2 [s HS]]]]]]]].
  pose proof HS as HS0. destruct HS as [S3 SL SF SP SD SR SN SS SE SA SW]. destruct (SN HJ) as [Et _].
  unfold reported_sum. rewrite <- (tot_vanilla_sum _ _ _ HE SP).
  rewrite (sum_over_ext (fun k => forc_at f' k i) (fun k => 1 * forc_at f' k i)) by (intros; ring).
  assert (K1 : dkeys (s_forc (r_st a1)) = dkeys (s_forc st)).
  { pose proof (three_spec _ _ _ _ _ _ _ S3) as X. cbv zeta in X. destruct X as [_ [_ [[L3 _] _]]]. rewrite <- L3. apply SL. }
  eapply (sums (fun _ => 1)); eauto.
  rewrite Et. pose proof (pr_tot _ _ _ _ _ SR) as TR. cbn [r_tot r_st] in TR. rewrite K1 in TR. rewrite TR.
  pose proof (lr_tot _ _ _ _ _ _ _ _ SL) as TL. cbn [r_tot] in TL. rewrite TL.
  rewrite !sum_over_scale. rewrite !Rmult_1_l. reflexivity.
Qed.

Lemma main_share k : main3 k = true -> north_share k = 1.
Proof. intros H. apply smem_In in H. destruct H as [<-|[<-|[<-|[]]]]; reflexivity. Qed.

Lemma c45_north : wf (fr_cols erf) -> just_one p = None ->
  nh = sum_over (fun k => north_share k * forc_at f' k i) (components f') + sum_over (fun k => cell erf k y) (dkeys (fr_cols erf)) + sun /\
  sh = sum_over (fun k => (2 - north_share k) * forc_at f' k i) (components f') + sum_over (fun k => cell erf k y) (dkeys (fr_cols erf)) + sun.
Proof using HR HW HT HP.
  intros HE HJ. destruct stages_exist as [t3 [st3 [nh3 [sh3 [a1 [pre [a2 [s HS]]]]]]]].
  pose proof HS as HS0. destruct HS as [S3 SL SF SP SD SR SN SS SE SA SW]. destruct (SN HJ) as [_ [En Es]].
  rewrite <- (tot_vanilla_sum _ _ _ HE SP).
  pose proof (three_spec _ _ _ _ _ _ _ S3) as X. cbv zeta in X. destruct X as [_ [_ [[L3 _] [_ [_ [_ [_ [N3 [H3 _]]]]]]]]].
  assert (K1 : dkeys (s_forc (r_st a1)) = dkeys (s_forc st)) by (rewrite <- L3; apply SL).
  rewrite En, Es. split.
  - f_equal. apply (sums north_share _ nh3 (r_nh a1) (r_nh a2) t3 st3 nh3 sh3 a1 pre a2 s); auto using main_share.
    + apply (lr_nh _ _ _ _ _ _ _ _ SL).
    + pose proof (pr_nh _ _ _ _ _ SR) as TR. cbn [r_nh r_st] in TR. rewrite K1 in TR. exact TR.
  - f_equal. apply (sums (fun k => 2 - north_share k) _ sh3 (r_sh a1) (r_sh a2) t3 st3 nh3 sh3 a1 pre a2 s); auto.
    + intros k Hk. rewrite main_share by auto. ring.
    + apply (lr_sh _ _ _ _ _ _ _ _ SL).
    + pose proof (pr_sh _ _ _ _ _ SR) as TR. cbn [r_sh r_st] in TR. rewrite K1 in TR. exact TR.
Qed.
End Result.

(** Only one component: its forcing is the total. *)
Lemma c44_just_one (p : hpam R) conc_in emis erf pert y luc sun st st' tot nh sh w j :
  conc2forc p conc_in emis erf pert y luc sun st = Ok ((tot, nh, sh, w), st') -> wf (s_forc st) -> just_one p = Some j ->
  In j (dkeys (s_forc st)) /\ (j <> TOTAL -> tot = forc_at (s_forc st') j (forc_ix p y)) /\
  nh = north_share j * tot + sun /\ sh = (2 - north_share j) * tot + sun.
Proof.
  intros HR HW HJ. destruct (stages_exist _ _ _ _ _ _ _ _ _ _ _ _ _ _ HR HW) as [t3 [st3 [nh3 [sh3 [a1 [pre [a2 [s [S3 SL SF SP SD SR SN SS SE SA SW]]]]]]]]].
  destruct (SS j HJ) as [I [E1 [E2 E3]]]. split; auto. split; auto. intros Hj.
  destruct (forc_set_at _ _ _ _ _ _ SE) as [_ [_ [_ [_ [_ [A4 _]]]]]]. rewrite A4.
  apply String.eqb_neq in Hj. rewrite Hj. exact E1.
Qed.

Lemma c45_mean (p : hpam R) conc_in emis erf pert y luc sun st st' tot nh sh w :
  conc2forc p conc_in emis erf pert y luc sun st = Ok ((tot, nh, sh, w), st') -> wf (s_forc st) ->
  (nh + sh) / 2 = tot + sun.
Proof.
  intros HR HW. destruct (stages_exist _ _ _ _ _ _ _ _ _ _ _ _ _ _ HR HW) as [t3 [st3 [nh3 [sh3 [a1 [pre [a2 [s [S3 SL SF SP SD SR SN SS SE SA SW]]]]]]]]].
  destruct (just_one p) as [j|].
  - destruct (SS j eq_refl) as [_ [_ [-> ->]]]. field.
  - destruct (SN eq_refl) as [-> [-> ->]].
    pose proof (three_spec _ _ _ _ _ _ _ S3) as X. cbv zeta in X. destruct X as [_ [_ [_ [_ [_ [_ [_ [N3 [H3 _]]]]]]]]].
    destruct SL as [_ _ _ _ _ _ T1 N1 H1 _ _]. destruct SR as [_ _ _ _ _ T2 N2 H2 _]. cbn [r_tot r_nh r_sh r_st] in *.
    rewrite T2, N2, H2, T1, N1, H1, N3, H3.
    assert (D : forall g l, sum_over (fun k => (2 - north_share k) * g k) l = 2 * sum_over g l - sum_over (fun k => north_share k * g k) l).
    { intros g l. rewrite <- sum_over_scale. induction l as [|k l IH]; cbn [sum_over]; [ring|]. rewrite IH. ring. }
    rewrite !D. field.
Qed.

(** The aerosol weight. *)
Lemma c46_weight (p : hpam R) conc_in emis erf pert y luc sun st st' tot nh sh w :
  conc2forc p conc_in emis erf pert y luc sun st = Ok ((tot, nh, sh, w), st') -> wf (s_forc st) ->
  (forall k, In k (dkeys (s_forc st)) -> pert_sum (pert_rows pert) y k = 0) ->
  let f' := s_forc st' in let i := forc_ix p y in
  let all := sum_over (fun k => Rabs (forc_at f' k i)) (components f') in
  let aero := sum_over (fun k => if is_aerosol k then Rabs (forc_at f' k i) else 0) (components f') in
  0 <= w <= 1 /\ (all <= 0 -> w = 0) /\ (0 < all -> w = aero / all).
Proof.
  intros HR HW HP0 f' i all aero.
  destruct (stages_exist _ _ _ _ _ _ _ _ _ _ _ _ _ _ HR HW) as [t3 [st3 [nh3 [sh3 [a1 [pre [a2 [s [S3 SL SF SP SD SR SN SS SE SA SW]]]]]]]]].
  pose proof (three_spec _ _ _ _ _ _ _ S3) as X. cbv zeta in X. destruct X as [G3 [C3 [L3 [O3 [R3 [I3 [T3 _]]]]]]].
  destruct SL as [L1 G1 _ _ O1 R1 T1 _ _ Q1 Z1]. destruct SR as [L2 G2 _ R2 A2 T2 _ _ _]. cbn [r_st r_tot r_aero] in *.
  destruct (forc_set_at _ _ _ _ _ _ SE) as [G4 [_ [L4 [I4 [_ [A4 _]]]]]].
  assert (K3 : dkeys (s_forc st3) = dkeys (s_forc st)) by apply L3.
  assert (K1 : dkeys (s_forc (r_st a1)) = dkeys (s_forc st)) by (rewrite <- K3; apply L1).
  assert (K2 : dkeys (s_forc (r_st a2)) = dkeys (s_forc st)) by (rewrite <- K1; apply L2).
  assert (K4 : dkeys (s_forc st') = dkeys (s_forc st)) by (rewrite <- K2; apply L4).
  assert (W4 : wf (s_forc st')) by (unfold wf in *; rewrite K4; exact HW).
  rewrite (abs_total_sum _ _ _ _ W4 SA) in SW. fold f' i all in SW.
  assert (HA : r_aero a1 = aero).
  { rewrite Q1. unfold aero, components, f'. rewrite K4, sum_over_filter. rewrite Rplus_0_l. apply sum_over_ext. intros k Hk.
    unfold counted_aero. destruct (String.eqb_spec k TOTAL) as [->|HkT]; [reflexivity|]. cbn [negb].
    assert (EF : forc_at (s_forc st') k (forc_ix p y) = forc_at (s_forc (r_st a1)) k (forc_ix p y)).
    { rewrite A4. apply String.eqb_neq in HkT. rewrite HkT. cbn [andb]. rewrite A2 by (rewrite K1; exact Hk). rewrite HP0 by auto. ring. }
    unfold i. rewrite EF. destruct (main3 k) eqn:EM; cbn [negb andb].
    - apply smem_In in EM. destruct EM as [<-|[<-|[<-|[]]]]; reflexivity.
    - destruct (String.eqb_spec k "LANDUSE") as [->|]; cbn [negb andb]; reflexivity. }
  rewrite HA in SW.
  assert (B : 0 <= aero <= all).
  { split; unfold aero, all.
    - apply Rle_trans with (sum_over (fun _ => 0) (components f')); [right; symmetry; apply sum_over_0; auto|]. apply sum_over_le. intros k _. destruct (is_aerosol k); [apply Rabs_pos|lra].
    - apply sum_over_le. intros k _. destruct (is_aerosol k); [lra|apply Rabs_pos]. }
  destruct (Rlt_dec 0 all) as [Hp|Hn].
  - split; [|split; intros; auto; lra]. subst w. split.
    + apply Rmult_le_pos; [apply B|]. left; apply Rinv_0_lt_compat; auto.
    + apply Rmult_le_reg_r with all; auto. unfold Rdiv. rewrite Rmult_assoc, Rinv_l by lra. lra.
  - split; [lra|]. split; intros; auto; lra.
Qed.
