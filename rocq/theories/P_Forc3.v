(** * P_Forc3: forcing perturbations (C48), the first year (C43) *)
From Coq Require Import Reals Lra Psatz.
From Verif Require Import PyBase PyBaseFacts Num M_Gas M_Forcing Spec_Gas Spec_Forc P_Gas2 P_Gas3 P_Gas4 P_Forc P_Forc2.
Open Scope R_scope.

Definition in_range (p : hpam R) (y : Z) (f : dict (list R)) : Prop :=
  forall k v, dget f k = Some v -> (forc_ix p y < List.length v)%nat.
Lemma in_range_same p y f f' : same_lengths f f' -> in_range p y f -> in_range p y f'.
Proof.
  intros [K L] H k v' Hv'. destruct (dget f k) as [v|] eqn:E.
  - destruct (L _ _ E) as [v1 [E1 E2]]. rewrite Hv' in E1. inversion E1; subst. rewrite E2. eauto.
  - exfalso. apply dget_None_keys in E. apply E. rewrite <- K. apply dget_In_keys. unfold dmem. rewrite Hv'. reflexivity.
Qed.
Lemma in_range_back p y f f' : same_lengths f f' -> in_range p y f' -> in_range p y f.
Proof. intros [K L] H k v Hv. destruct (L _ _ Hv) as [v1 [E1 E2]]. rewrite <- E2. eauto. Qed.

Lemma abs_fold_range (p : hpam R) y l : forall s s',
  fold_left (fun acc kv => do s <- acc;
     if String.eqb (fst kv) TOTAL then Ok s
     else do x <- match nth_error (snd kv) (forc_ix p y) with Some x => Ok x | None => Err IndexError end; Ok (nadd s (nabs x))) l (Ok s) = Ok s' ->
  forall k (v : list R), In (k, v) l -> k <> TOTAL -> (forc_ix p y < List.length v)%nat.
Proof.
  induction l as [|[k v] l IH]; intros s s' H k0 v0 Hin Hne; [contradiction|]. cbn [fold_left rbind fst snd] in H.
  destruct (String.eqb_spec k TOTAL) as [->|Hk].
  - destruct Hin as [E|Hin]; [inversion E; subst; congruence|]. eapply IH; eauto.
  - destruct (nth_error v (forc_ix p y)) as [x|] eqn:E; cbn [rbind] in H.
    2:{ rewrite fold_err in H by reflexivity. discriminate. }
    destruct Hin as [E'|Hin]; [inversion E'; subst; apply nth_error_Some; congruence|]. eapply IH; eauto.
Qed.
Lemma abs_fold_ok (p : hpam R) y l : (forall k (v : list R), In (k, v) l -> (forc_ix p y < List.length v)%nat) -> forall s,
  exists s', fold_left (fun acc kv => do s <- acc;
     if String.eqb (fst kv) TOTAL then Ok s
     else do x <- match nth_error (snd kv) (forc_ix p y) with Some x => Ok x | None => Err IndexError end; Ok (nadd s (nabs x))) l (Ok s) = Ok s'.
Proof.
  induction l as [|[k v] l IH]; intros H s; [eexists; reflexivity|]. cbn [fold_left rbind fst snd].
  destruct (String.eqb k TOTAL); [apply IH; intros; eapply H; right; eauto|].
  destruct (nth_error v (forc_ix p y)) as [x|] eqn:E.
  - cbn [rbind]. apply IH; intros; eapply H; right; eauto.
  - apply nth_error_None in E. specialize (H k v (or_introl eq_refl)). lia.
Qed.
Lemma abs_ok (p : hpam R) y st : wf (s_forc st) -> in_range p y (s_forc st) -> exists s, abs_total p y st = Ok s.
Proof. intros HW HI. apply abs_fold_ok. intros k v Hin. eapply HI. apply wf_In_dget; eauto. Qed.

Lemma forc_set_ok (p : hpam R) y st t q : in_range p y (s_forc st) -> In t (dkeys (s_forc st)) -> exists st', forc_set p st t y q = Ok st'.
Proof.
  intros HI Hin. apply dget_In_keys in Hin. unfold dmem in Hin. unfold forc_set, key.
  destruct (dget (s_forc st) t) as [v|] eqn:E; [|discriminate]. cbn [rbind].
  destruct (Nat.ltb_spec (forc_ix p y) (List.length v)); [eauto|]. specialize (HI _ _ E). lia.
Qed.
Lemma forc_get_ok (p : hpam R) y st t : in_range p y (s_forc st) -> In t (dkeys (s_forc st)) -> exists q, forc_get p st t y = Ok q.
Proof.
  intros HI Hin. apply dget_In_keys in Hin. unfold dmem in Hin. unfold forc_get, key.
  destruct (dget (s_forc st) t) as [v|] eqn:E; [|discriminate]. cbn [rbind].
  destruct (nth_error v (forc_ix p y)) as [x|] eqn:EN; [eauto|]. apply nth_error_None in EN. specialize (HI _ _ E). lia.
Qed.
Lemma add_pert_ok (p : hpam R) y pt : forall a, in_range p y (s_forc (r_st a)) -> exists a', add_forcing_pert p pt y a = Ok a'.
Proof.
  unfold add_forcing_pert. induction pt as [|[[y' k] v] pt IH]; intros a HI; cbn [filter fst]; [eexists; reflexivity|].
  destruct (Z.eqb y' y); [|apply IH; auto]. cbn [fold_left]. unfold pert_turn at 2. cbn [rbind].
  destruct (dmem (s_forc (r_st a)) k) eqn:EM; [|apply IH; auto].
  apply dget_In_keys in EM. destruct (forc_get_ok p y _ _ HI EM) as [q EQ]. rewrite EQ. cbn [rbind].
  destruct (forc_set_ok p y _ _ (nadd q v) HI EM) as [s1 ES]. rewrite ES. cbn [rbind]. apply IH. cbn [r_st].
  eapply in_range_same; [|exact HI]. destruct (forc_set_at _ _ _ _ _ _ ES) as [_ [_ [L _]]]. exact L.
Qed.

(** C48: the same year with and without the perturbation table. *)
Lemma c48_perturbed (p : hpam R) conc_in emis erf pt y luc sun st st0 tot0 nh0 sh0 w0 :
  conc2forc p conc_in emis erf None y luc sun st = Ok ((tot0, nh0, sh0, w0), st0) -> wf (s_forc st) -> just_one p = None ->
  exists tot nh sh w st1, conc2forc p conc_in emis erf (Some pt) y luc sun st = Ok ((tot, nh, sh, w), st1) /\
    let i := forc_ix p y in let keys := dkeys (s_forc st) in
    tot = tot0 + sum_over (pert_sum pt y) keys /\
    nh = nh0 + sum_over (fun k => north_share k * pert_sum pt y k) keys /\
    sh = sh0 + sum_over (fun k => (2 - north_share k) * pert_sum pt y k) keys /\
    (forall k, In k keys -> k <> TOTAL -> forc_at (s_forc st1) k i = forc_at (s_forc st0) k i + pert_sum pt y k) /\
    (forall k j, j <> i -> forc_at (s_forc st1) k j = forc_at (s_forc st0) k j) /\
    dkeys (s_forc st1) = dkeys (s_forc st0) /\ s_conc st1 = s_conc st0 /\ s_gas st1 = s_gas st0.
Proof.
  intros HR HW HJ.
  destruct (stages_exist _ _ _ _ _ _ _ _ _ _ _ _ _ _ HR HW) as [t3 [st3 [nh3 [sh3 [a1 [pre [a2 [s [S3 SL SF SP SD SR SN SS SE SA SW]]]]]]]]].
  cbn [pert_rows] in SR. destruct (SN HJ) as [E1 [E2 E3]]. clear SN SS SW.
  inversion SD as [SD']. clear SD.
  pose proof (three_spec _ _ _ _ _ _ _ S3) as X. cbv zeta in X. destruct X as [_ [_ [L3 _]]].
  pose proof (lr_len _ _ _ _ _ _ _ _ SL) as L1. cbn [r_st] in L1.
  destruct (forc_set_at _ _ _ _ _ _ SE) as [G4 [C4 [L4 [I4 [O4 [A4 [vT [HvT1 HvT2]]]]]]]].
  assert (K3 : dkeys (s_forc st3) = dkeys (s_forc st)) by apply L3.
  assert (K1 : dkeys (s_forc (r_st a1)) = dkeys (s_forc st)) by (rewrite <- K3; apply L1).
  rewrite <- SD' in L4, A4, I4, G4, C4. cbn [r_st] in L4, A4, I4, G4, C4.
  assert (K4 : dkeys (s_forc st0) = dkeys (s_forc st)) by (rewrite <- K1; apply L4).
  assert (HI : in_range p y (s_forc (r_st a1))).
  { eapply in_range_back; [exact L4|]. intros k v Hv. destruct (string_dec k TOTAL) as [->|Hne].
    - rewrite HvT1 in Hv. inversion Hv; subst. exact HvT2.
    - eapply abs_fold_range; [exact SA| |exact Hne]. apply dget_Some_In. exact Hv. }
  set (b0 := {| r_tot := r_tot a1 + pre; r_nh := r_nh a1 + pre; r_sh := r_sh a1 + pre; r_aero := r_aero a1; r_st := r_st a1 |}) in *.
  destruct (add_pert_ok p y pt b0 HI) as [b EB].
  assert (HNb : NoDup (dkeys (s_forc (r_st b0)))) by (unfold b0; cbn [r_st]; rewrite K1; exact HW).
  pose proof (pert_all p y pt b0 b HNb EB) as PR. destruct PR as [PL PG PC PRW PA PT PN PS PQ].
  unfold b0 in PL, PG, PC, PRW, PA, PT, PN, PS, PQ. cbn [r_st r_tot r_nh r_sh r_aero] in *.
  assert (Kb : dkeys (s_forc (r_st b)) = dkeys (s_forc st)) by (rewrite <- K1; apply PL).
  assert (HIb : in_range p y (s_forc (r_st b))) by (eapply in_range_same; eauto).
  destruct (forc_set_ok p y (r_st b) TOTAL (r_tot b) HIb) as [s1 ES]. { rewrite Kb, <- K1. exact I4. }
  destruct (forc_set_at _ _ _ _ _ _ ES) as [G5 [C5 [L5 [I5 [O5 [A5 _]]]]]].
  destruct (abs_ok p y s1) as [sa ESA].
  { unfold wf. destruct L5 as [-> _]. rewrite Kb. exact HW. }
  { eapply in_range_same; eauto. }
  exists (r_tot b), (r_nh b + sun), (r_sh b + sun). do 2 eexists. split.
  - unfold conc2forc. rewrite S3. cbn [rbind]. change (nofZ 0) with 0. rewrite SF. cbn [rbind]. rewrite SP. cbn [rbind].
    change (@nadd R RNum) with Rplus. fold b0. rewrite EB. cbn [rbind]. rewrite HJ. cbn [rbind].
    unfold TOTAL in ES. rewrite ES. cbn [rbind]. rewrite ESA. cbn [rbind]. reflexivity.
  - cbv zeta. rewrite <- SD' in E1, E2, E3. unfold b0 in E1, E2, E3. cbn [r_tot r_nh r_sh] in E1, E2, E3. rewrite K1 in PT, PN, PS.
    rewrite PT, PN, PS, E1, E2, E3. split; [ring|]. split; [ring|]. split; [ring|]. split; [|split; [|split; [|split]]].
    + intros k Hk HkT. rewrite A5, A4. apply String.eqb_neq in HkT. rewrite HkT. cbn [andb]. apply PA. rewrite K1. exact Hk.
    + intros k j Hj. rewrite A5, A4. destruct (Nat.eqb_spec j (forc_ix p y)); [congruence|]. rewrite !andb_false_r. apply PRW; auto.
    + destruct L5 as [-> _]. congruence.
    + congruence.
    + congruence.
Qed.

(** Rows for unknown components or other years have no effect. *)
Lemma c48_other (pt : ptable R) y k : (forall v, ~ In (y, k, v) pt) -> pert_sum pt y k = 0.
Proof.
  induction pt as [|[[y' k'] v] l IH]; intros H; cbn [pert_sum]; [reflexivity|].
  rewrite IH by (intros v1 Hin; apply (H v1); right; auto).
  destruct (Z.eqb_spec y' y) as [->|]; cbn [andb]; [|ring]. destruct (String.eqb_spec k' k) as [->|]; [|ring].
  exfalso. apply (H v). left; reflexivity.
Qed.

(** *** The first year *)
Lemma first_three (p : hpam R) st tot nh sh st' : forc_three_main p (nystart p) st = Ok (tot, nh, sh, st') ->
  (exists c, conc_get st "CO2" (nystart p) = Ok c /\ c <> 0) ->
  tot = 0 /\ nh = 0 /\ sh = 0 /\ forall k, main3 k = true -> forc_at (s_forc st') k (forc_ix p (nystart p)) = 0.
Proof.
  intros H [c [Hc Hc0]]. pose proof (three_spec _ _ _ _ _ _ _ H) as X. cbv zeta in X.
  destruct X as [_ [_ [_ [_ [_ [_ [T [-> [-> [c0n [cn [c0c [cc [c0m [cm [gc [gn [gm [A1 [A2 [A3 [A4 [A5 [A6 [_ [_ [_ [F1 [F2 F3]]]]]]]]]]]]]]]]]]]]]]]]]]]]].
  rewrite A1 in A2. rewrite A3 in A4, Hc. rewrite A5 in A6. inversion A2; inversion A4; inversion A6; inversion Hc; subst.
  assert (Z1 : rf_co2 c c cn cn = 0). { unfold rf_co2. rnum. replace (c / c) with 1 by (field; auto). rewrite ln_1. ring. }
  assert (Z2 : rf_n2o c c cn cn cm cm = 0) by (unfold rf_n2o; rnum; ring).
  assert (Z3 : rf_ch4 cn cn cm cm = 0) by (unfold rf_ch4; rnum; ring).
  rewrite Z1 in F1. rewrite Z2 in F2. rewrite Z3 in F3. rewrite Rmult_0_r in F1, F2, F3. rewrite F1, F2, F3.
  split; [ring|]. split; [ring|]. split; [ring|]. intros k Hk. apply smem_In in Hk. destruct Hk as [<-|[<-|[<-|[]]]]; auto.
Qed.

Lemma first_trop (p : hpam R) conc_in emis st q st' : tropospheric_ozone p conc_in emis (nystart p) st = Ok (q, st') -> q = 0.
Proof.
  unfold tropospheric_ozone. destruct (trop_o3_conc _ _ _ st _) as [c|]; cbn [rbind]; [|discriminate].
  destruct (conc_set st "TROP_O3" (nystart p) c) as [s1|]; cbn [rbind]; [|discriminate].
  destruct (conc_get s1 "TROP_O3" (nystart p)) as [v|]; cbn [rbind]; [|discriminate].
  intros H; inversion H; subst. unfold trop_o3_from. destruct (neqb v _); rnum; [reflexivity|]. unfold Rdiv. ring.
Qed.
Lemma first_aero (p : hpam R) emis st k q : aerosol_forcing p emis st (nystart p) k = Ok q -> q = 0.
Proof.
  unfold aerosol_forcing. destruct (key k _) as [g|]; cbn [rbind]; [|discriminate].
  destruct (negb (neqb (g_alpha g) (nofZ 0))).
  - destruct (fr_get emis k (nystart p)); cbn [rbind]; [|discriminate]. intros H; inversion H; subst. rnum. ring.
  - destruct (dget (ref_emission_species p) k) as [[r f]|].
    + destruct (fr_get emis r (nystart p)); cbn [rbind]; [|discriminate]. intros H; inversion H; subst. rnum. ring.
    + intros H; inversion H; subst. reflexivity.
Qed.
Lemma first_component (p : hpam R) conc_in emis luc k st q st' : component p conc_in emis (nystart p) luc k st = Ok (q, st') ->
  (k = "LANDUSE" -> q = luc) /\ (k <> "LANDUSE" -> (k = "STRAT_H2O" -> forc_at (s_forc st) "CH4" (forc_ix p (nystart p)) = 0) -> q = 0).
Proof.
  unfold component. intros H. destruct (String.eqb_spec k "LANDUSE") as [->|Hl].
  { inversion H; subst. split; auto. congruence. }
  split; [congruence|]. intros _ HC.
  destruct (is_aerosol k).
  { destruct (aerosol_forcing p emis st (nystart p) k) eqn:E; cbn [rbind] in H; [|discriminate]. inversion H; subst. eapply first_aero; eauto. }
  match type of H with (if ?b then _ else _) = _ => destruct b end.
  { destruct (key k _); cbn [rbind] in H; [|discriminate]. destruct (conc_get st k (nystart p)); cbn [rbind] in H; [|discriminate].
    inversion H; subst. rnum. ring. }
  destruct (String.eqb_spec k "TROP_O3") as [->|].
  { destruct (tropospheric_ozone p conc_in emis (nystart p) st) as [[q1 s1]|] eqn:E; cbn [rbind] in H; [|discriminate].
    destruct (sarf st "TROP_O3"); cbn [rbind] in H; [|discriminate]. inversion H; subst. cbn [fst].
    rewrite (first_trop _ _ _ _ _ _ E). rnum. ring. }
  destruct (String.eqb_spec k "STRAT_H2O") as [->|].
  { destruct (forc_get p st "CH4" (nystart p)) as [m|] eqn:E; cbn [rbind] in H; [|discriminate].
    destruct (forc_get_at _ _ _ _ _ E) as [_ Em]. rewrite HC in Em by auto. subst m.
    destruct (sarf st "STRAT_H2O"); cbn [rbind] in H; [|discriminate]. inversion H; subst. rnum. ring. }
  inversion H; reflexivity.
Qed.

Lemma c43_first (p : hpam R) conc_in emis erf luc sun st st' tot nh sh w :
  let y := nystart p in
  conc2forc p conc_in emis erf None y luc sun st = Ok ((tot, nh, sh, w), st') -> wf (s_forc st) -> just_one p = None ->
  (exists c, conc_get st "CO2" y = Ok c /\ c <> 0) ->
  (forall k, In k (components (s_forc st')) -> forc_at (s_forc st') k (forc_ix p y) = if String.eqb k "LANDUSE" then luc else 0) /\
  (wf (fr_cols erf) -> tot = sum_over (fun k => cell erf k y) (dkeys (fr_cols erf)) + if smem "LANDUSE" (dkeys (s_forc st)) then luc else 0).
Proof.
  intros y HR HW HJ Hc.
  destruct (stages_exist _ _ _ _ _ _ _ _ _ _ _ _ _ _ HR HW) as [t3 [st3 [nh3 [sh3 [a1 [pre [a2 [s [S3 SL SF SP SD SR SN SS SE SA SW]]]]]]]]].
  destruct (SN HJ) as [E1 [E2 E3]]. inversion SD as [SD']. subst y. set (y := nystart p) in *.
  pose proof (first_three _ _ _ _ _ _ S3 Hc) as [T0 [_ [_ F0]]].
  pose proof (three_spec _ _ _ _ _ _ _ S3) as X. cbv zeta in X. destruct X as [_ [_ [L3 _]]].
  destruct SL as [L1 G1 _ _ O1 R1 T1 _ _ Q1 Z1]. cbn [r_st r_tot] in *.
  assert (K3 : dkeys (s_forc st3) = dkeys (s_forc st)) by apply L3.
  assert (K1 : dkeys (s_forc (r_st a1)) = dkeys (s_forc st)) by (rewrite <- K3; apply L1).
  destruct (forc_set_at _ _ _ _ _ _ SE) as [_ [_ [L4 [_ [_ [A4 _]]]]]]. rewrite <- SD' in A4, L4. cbn [r_st] in A4, L4.
  assert (HV : forall k, In k (dkeys (s_forc st)) -> forc_at (s_forc (r_st a1)) k (forc_ix p y) = if String.eqb k "LANDUSE" then luc else 0).
  { intros k Hk. destruct (main3 k) eqn:EM.
    - unfold forc_at. rewrite O1 by auto. fold (forc_at (s_forc st3) k (forc_ix p y)). rewrite F0 by auto.
      apply smem_In in EM. destruct EM as [<-|[<-|[<-|[]]]]; reflexivity.
    - destruct (Z1 k Hk EM) as [_ [s0 [q [s1 [C1 [C2 [C3 [C4 _]]]]]]]]. rewrite C2.
      destruct (first_component _ _ _ _ _ _ _ _ C1) as [D1 D2]. destruct (String.eqb_spec k "LANDUSE"); auto. apply D2; auto.
      intros _. unfold forc_at. rewrite C4. apply (F0 "CH4"). reflexivity. }
  split.
  - intros k Hk. unfold components in Hk. apply filter_In in Hk. destruct Hk as [Hk HkT]. rewrite A4.
    destruct (String.eqb k TOTAL); [discriminate|]. cbn [andb]. apply HV.
    destruct L4 as [L4 _]. rewrite L4, K1 in Hk. exact Hk.
  - intros HE. rewrite <- (tot_vanilla_sum _ _ _ HE SP). rewrite E1, <- SD'. cbn [r_tot]. rewrite T1, T0.
    rewrite (sum_over_ext _ (fun k => if String.eqb "LANDUSE" k then luc else 0)).
    + rewrite sum_over_pick by auto. ring.
    + intros k Hk. unfold counted. rewrite HV by auto. rewrite (eqb_sym_s k). destruct (main3 k) eqn:EM; auto.
      apply smem_In in EM. destruct EM as [<-|[<-|[<-|[]]]]; reflexivity.
Qed.
