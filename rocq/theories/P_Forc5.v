(** * P_Forc5: ozone anchors (C42), CO2 forcing (C47), emission perturbations (C49), regional aerosols (C50) *)
From Coq Require Import Reals Lra Psatz.
From Verif Require Import PyBase PyBaseFacts Num M_Gas M_Forcing Spec_Gas Spec_Forc P_Gas2 P_Gas3 P_Gas4 P_Forc P_Forc2 P_Forc3 P_Forc4.
Open Scope R_scope.

(** *** C42 *)
Lemma c42_formula (p : hpam R) conc_in emis y st q st' : tropospheric_ozone p conc_in emis y st = Ok (q, st') -> y <> nystart p ->
  exists m mr nox noxr co cor voc vocr v0,
    conc_get st "CH4" y = Ok m /\ fr_get conc_in "CH4" (ref_yr p) = Ok mr /\
    fr_get emis "NOx" y = Ok nox /\ fr_get emis "NOx" (ref_yr p) = Ok noxr /\
    fr_get emis "CO" y = Ok co /\ fr_get emis "CO" (ref_yr p) = Ok cor /\
    fr_get emis "NMVOC" y = Ok voc /\ fr_get emis "NMVOC" (ref_yr p) = Ok vocr /\
    conc_get st "TROP_O3" (nystart p) = Ok v0 /\
    let v := 30 + 67 / 10 * (ln m - ln mr) + 17 / 100 * (nox - noxr) + 14 / 10000 * (co - cor) + 42 / 10000 * (voc - vocr) in
    conc_get st' "TROP_O3" y = Ok v /\
    (v0 <> 30 -> q = (v - v0) / (30 - v0) * qo3 p) /\ (v0 = 30 -> q = 0).
Proof.
  intros H Hy. unfold tropospheric_ozone, trop_o3_conc in H.
  destruct (conc_get st "CH4" y) as [m|] eqn:E1; cbn [rbind] in H; [|discriminate].
  destruct (fr_get conc_in "CH4" (ref_yr p)) as [mr|] eqn:E2; cbn [rbind] in H; [|discriminate].
  destruct (fr_get emis "NOx" y) as [nox|] eqn:E3; cbn [rbind] in H; [|discriminate].
  destruct (fr_get emis "NOx" (ref_yr p)) as [noxr|] eqn:E4; cbn [rbind] in H; [|discriminate].
  destruct (fr_get emis "CO" y) as [co|] eqn:E5; cbn [rbind] in H; [|discriminate].
  destruct (fr_get emis "CO" (ref_yr p)) as [cor|] eqn:E6; cbn [rbind] in H; [|discriminate].
  destruct (fr_get emis "NMVOC" y) as [voc|] eqn:E7; cbn [rbind] in H; [|discriminate].
  destruct (fr_get emis "NMVOC" (ref_yr p)) as [vocr|] eqn:E8; cbn [rbind] in H; [|discriminate].
  match type of H with rbind (conc_set st "TROP_O3" y ?c) _ = _ => set (v := c) in * end.
  destruct (conc_set st "TROP_O3" y v) as [s1|] eqn:ES; cbn [rbind] in H; [|discriminate].
  pose proof (conc_set_get _ _ _ _ _ "TROP_O3" y ES) as G1. rewrite String.eqb_refl, Z.eqb_refl in G1. cbn [andb] in G1.
  pose proof (conc_set_get _ _ _ _ _ "TROP_O3" (nystart p) ES) as G2. destruct (Z.eqb_spec y (nystart p)); [congruence|]. rewrite andb_false_r in G2.
  rewrite G1, G2 in H. cbn [rbind] in H.
  destruct (conc_get st "TROP_O3" (nystart p)) as [v0|] eqn:E9; cbn [rbind] in H; [|discriminate].
  inversion H; subst q st'. clear H.
  exists m, mr, nox, noxr, co, cor, voc, vocr, v0. repeat (split; [auto; fail|]).
  assert (EV : v = 30 + 67 / 10 * (ln m - ln mr) + 17 / 100 * (nox - noxr) + 14 / 10000 * (co - cor) + 42 / 10000 * (voc - vocr)).
  { unfold v. rnum. rdec. reflexivity. }
  cbv zeta. rewrite <- EV. unfold trop_o3_from. rnum. destruct (Req_EM_T v0 30); split; intros; try congruence; auto.
Qed.

Lemma c42_reference (p : hpam R) conc_in emis st q st' : let r := ref_yr p in
  tropospheric_ozone p conc_in emis r st = Ok (q, st') -> r <> nystart p ->
  conc_get st "CH4" r = fr_get conc_in "CH4" r -> (exists v0, conc_get st "TROP_O3" (nystart p) = Ok v0 /\ v0 <> 30) -> q = qo3 p.
Proof.
  intros r H Hr HC [w0 [Hw0 Hw]].
  destruct (c42_formula _ _ _ _ _ _ _ H Hr) as [m [mr [nox [noxr [co [cor [voc [vocr [v0 [E1 [E2 [E3 [E4 [E5 [E6 [E7 [E8 [E9 [_ [F _]]]]]]]]]]]]]]]]]]]].
  fold r in E2, E4, E6, E8. assert (m = mr) by congruence. assert (nox = noxr) by congruence. assert (co = cor) by congruence.
  assert (voc = vocr) by congruence. assert (v0 = w0) by congruence. subst. rewrite F by auto. field. lra.
Qed.

(** What happens in the reference year reaches back. *)
Definition lk_pam (o3 : R) : hpam R :=
  {| nystart := 0; nyend := 2; emstart := 0; conc_run := false; lifetime_mode := ""; just_one := None; ref_yr := 2;
     qbmb := 0; qo3 := o3; qdirso2 := 0; qindso2 := 0; qbc := 0; qoc := 0; qh2o_ch4 := 0; qnmvoc := 0; qnh3 := 0; qnox := 0;
     cl_dict := []; br_dict := [] |}.
Definition lk_emis (r : R) : frame R :=
  {| fr_index := [0; 1; 2]%Z; fr_cols := [("NOx", [0; 1; r]); ("CO", [0; 0; 0]); ("NMVOC", [0; 0; 0])] |}.
Definition lk_conc : frame R := {| fr_index := [0; 1; 2]%Z; fr_cols := [("CH4", [1; 1; 1])] |}.
Definition lk_st : hst R :=
  {| s_gas := []; s_conc := [("CH4", [(0%Z, 1); (1%Z, 1); (2%Z, 1)]); ("TROP_O3", [])]; s_forc := [] |}.
Lemma lk_two r o3 : r <> 0 -> exists s1 s2,
  tropospheric_ozone (lk_pam o3) lk_conc (lk_emis r) 0 lk_st = Ok (0, s1) /\
  tropospheric_ozone (lk_pam o3) lk_conc (lk_emis r) 1 s1 = Ok (o3 / r, s2).
Proof.
  intros Hr.
  destruct (tropospheric_ozone (lk_pam o3) lk_conc (lk_emis r) 0 lk_st) as [[q0 s1]|] eqn:E0; [|discriminate E0].
  destruct (tropospheric_ozone (lk_pam o3) lk_conc (lk_emis r) 1 s1) as [[q1 s2]|] eqn:E1.
  2:{ exfalso. unfold tropospheric_ozone in E0. cbn -[RNum] in E0. inversion E0; subst. clear E0. discriminate E1. }
  pose proof (first_trop (lk_pam o3) _ _ _ _ _ E0) as ->.
  exists s1, s2. split; [reflexivity|].
  assert (V : conc_get s1 "TROP_O3" 0 = Ok (30 + 67 / 10 * (ln 1 - ln 1) + 17 / 100 * (0 - r) + 14 / 10000 * (0 - 0) + 42 / 10000 * (0 - 0))).
  { unfold tropospheric_ozone in E0. cbn -[RNum dec] in E0. inversion E0; subst. cbn -[RNum dec]. reflexivity. }
  assert (M : conc_get s1 "CH4" 1 = Ok 1).
  { destruct (trop_frame _ _ _ _ _ _ _ E0) as [_ [_ [_ C]]]. rewrite C by (left; discriminate). reflexivity. }
  destruct (c42_formula _ _ _ _ _ _ _ E1 ltac:(discriminate)) as [m [mr [nox [noxr [co [cor [voc [vocr [v0 [A1 [A2 [A3 [A4 [A5 [A6 [A7 [A8 [A9 [_ [F _]]]]]]]]]]]]]]]]]]]].
  cbn [nystart ref_yr qo3 lk_pam] in *. rewrite V in A9. rewrite M in A1. cbn in A2, A3, A4, A5, A6, A7, A8.
  assert (m = 1) by congruence. assert (mr = 1) by congruence. assert (nox = 1) by congruence. assert (noxr = r) by congruence.
  assert (co = 0) by congruence. assert (cor = 0) by congruence. assert (voc = 0) by congruence. assert (vocr = 0) by congruence.
  injection A9 as A9. subst m mr nox noxr co cor voc vocr.
  assert (Eq : q1 = o3 / r).
  { rewrite F by (rewrite <- A9; lra). rewrite <- A9. field. lra. }
  rewrite <- Eq. exact E1.
Qed.
Lemma c42_lookahead : exists (p : hpam R) conc_in emis emis' st s1 s2 s1' s2' q0 q q0' q',
  same_until emis emis' 1 /\ nystart p = 0%Z /\ (1 < ref_yr p)%Z /\
  tropospheric_ozone p conc_in emis 0 st = Ok (q0, s1) /\ tropospheric_ozone p conc_in emis 1 s1 = Ok (q, s2) /\
  tropospheric_ozone p conc_in emis' 0 st = Ok (q0', s1') /\ tropospheric_ozone p conc_in emis' 1 s1' = Ok (q', s2') /\ q <> q'.
Proof.
  destruct (lk_two 2 1 ltac:(lra)) as [s1 [s2 [A1 A2]]]. destruct (lk_two 4 1 ltac:(lra)) as [s1' [s2' [B1 B2]]].
  exists (lk_pam 1), lk_conc, (lk_emis 2), (lk_emis 4), lk_st, s1, s2, s1', s2', 0, (1 / 2), 0, (1 / 4).
  split.
  { split; [reflexivity|]. split; [reflexivity|]. intros k y' Hy. unfold fr_get, fr_col, key. cbn [fr_cols lk_emis fr_index dget].
    destruct (String.eqb "NOx" k); [|reflexivity]. cbn [rbind combine yget].
    destruct (Z.eqb_spec 0 y'); [reflexivity|]. destruct (Z.eqb_spec 1 y'); [reflexivity|]. destruct (Z.eqb_spec 2 y'); [lia|reflexivity]. }
  split; [reflexivity|]. split; [reflexivity|]. repeat (split; [assumption|]). lra.
Qed.

(** *** C47 *)
Definition pre_co2 (x n0 n : R) : R := - (24 / 100000000) * x ^ 2 + 72 / 100000 * x - 21 / 100000 * (5 / 10) * (n0 + n) + 536 / 100.
Lemma rf_co2_eq c0 c n0 n : rf_co2 c0 c n0 n = pre_co2 (Rabs (c - c0)) n0 n * ln (c / c0).
Proof.
  unfold rf_co2, pre_co2. rnum. rdec. f_equal. cbn [npown]. rnum.
  replace (Rabs (c - c0) ^ 2) with ((c - c0) ^ 2) by (rewrite <- (pow2_abs (c - c0)); reflexivity). cbn [pow]. field.
Qed.
Lemma pre_mono x x' n0 n : 0 <= x -> x <= x' -> x' <= 1500 -> pre_co2 x n0 n <= pre_co2 x' n0 n.
Proof. intros. unfold pre_co2. assert (0 <= (x' - x) * (3000 - (x' + x))) by (apply Rmult_le_pos; lra). lra. Qed.
Lemma pre_pos x n0 n : 0 <= x <= 1500 -> (n0 + n) / 2 <= 25523 -> 0 < pre_co2 x n0 n.
Proof.
  intros Hx Hn. apply Rlt_le_trans with (pre_co2 0 n0 n); [unfold pre_co2; lra|]. apply pre_mono; lra.
Qed.
Lemma ln_ratio_lt c0 c c' : 0 < c0 -> 0 < c -> c < c' -> ln (c / c0) < ln (c' / c0).
Proof.
  intros. apply ln_increasing; [apply Rdiv_lt_0_compat; lra|]. apply Rmult_lt_compat_r; [apply Rinv_0_lt_compat; auto|auto].
Qed.
Lemma ln_ratio_0 c0 : 0 < c0 -> ln (c0 / c0) = 0.
Proof. intros. replace (c0 / c0) with 1 by (field; lra). apply ln_1. Qed.

Lemma c47_zero c0 n0 n : 0 < c0 -> rf_co2 c0 c0 n0 n = 0.
Proof. intros. rewrite rf_co2_eq, ln_ratio_0 by auto. ring. Qed.
Lemma c47_sign c0 c n0 n : 0 < c0 -> 0 < c -> Rabs (c - c0) <= 1500 -> (n0 + n) / 2 <= 25523 ->
  (c0 < c -> 0 < rf_co2 c0 c n0 n) /\ (c < c0 -> rf_co2 c0 c n0 n < 0).
Proof.
  intros H0 Hc Hx Hn. rewrite rf_co2_eq. pose proof (pre_pos (Rabs (c - c0)) n0 n (conj (Rabs_pos _) Hx) Hn). split; intros.
  - pose proof (ln_ratio_lt c0 c0 c H0 H0 ltac:(auto)). rewrite ln_ratio_0 in * by auto. nra.
  - pose proof (ln_ratio_lt c0 c c0 H0 Hc ltac:(auto)). rewrite ln_ratio_0 in * by auto. nra.
Qed.
Lemma c47_increasing c0 c c' n0 n : 0 < c0 -> 0 < c -> c < c' -> Rabs (c - c0) <= 1500 -> Rabs (c' - c0) <= 1500 ->
  (n0 + n) / 2 <= 25523 -> rf_co2 c0 c n0 n < rf_co2 c0 c' n0 n.
Proof.
  intros H0 Hc Hcc Hx Hx' Hn. pose proof (ln_ratio_lt c0 c c' H0 Hc Hcc) as HL.
  destruct (Rle_lt_dec c' c0) as [H1|H1].
  - rewrite !rf_co2_eq. pose proof (pre_pos (Rabs (c' - c0)) n0 n (conj (Rabs_pos _) Hx') Hn).
    assert (pre_co2 (Rabs (c' - c0)) n0 n <= pre_co2 (Rabs (c - c0)) n0 n).
    { apply pre_mono; [apply Rabs_pos| |auto]. rewrite !Rabs_left1 by lra. lra. }
    assert (ln (c' / c0) <= 0).
    { destruct H1 as [H1| ->]; [|rewrite ln_ratio_0 by auto; lra]. left. rewrite <- (ln_ratio_0 c0 H0). apply ln_ratio_lt; lra. }
    nra.
  - destruct (Rle_lt_dec c0 c) as [H2|H2].
    + rewrite !rf_co2_eq. pose proof (pre_pos (Rabs (c - c0)) n0 n (conj (Rabs_pos _) Hx) Hn).
      assert (pre_co2 (Rabs (c - c0)) n0 n <= pre_co2 (Rabs (c' - c0)) n0 n).
      { apply pre_mono; [apply Rabs_pos| |auto]. rewrite !Rabs_right by lra. lra. }
      assert (0 <= ln (c / c0)).
      { destruct H2 as [H2| <-]; [|rewrite ln_ratio_0 by auto; lra]. left. rewrite <- (ln_ratio_0 c0 H0). apply ln_ratio_lt; lra. }
      nra.
    + pose proof (proj2 (c47_sign c0 c n0 n H0 Hc Hx Hn) H2). pose proof (proj1 (c47_sign c0 c' n0 n H0 ltac:(lra) Hx' Hn) H1). lra.
Qed.
Lemma c47_negative c0 c n0 n : 0 < c0 -> c0 + 6500 <= c -> 0 <= n0 + n -> rf_co2 c0 c n0 n < 0.
Proof.
  intros H0 Hc Hn. rewrite rf_co2_eq. pose proof (ln_ratio_lt c0 c0 c H0 H0 ltac:(lra)) as HL. rewrite ln_ratio_0 in HL by auto.
  rewrite Rabs_right by lra. assert (pre_co2 (c - c0) n0 n < 0); [|nra]. unfold pre_co2. set (x := c - c0).
  assert (6500 <= x) by (unfold x; lra). assert (25000000 <= (x - 1500) * (x - 1500)) by nra. lra.
Qed.
Lemma c47_n2o c0 c n0 n n' : 0 < c0 -> c0 < c -> n < n' -> rf_co2 c0 c n0 n' < rf_co2 c0 c n0 n.
Proof.
  intros H0 Hc Hn. rewrite !rf_co2_eq. pose proof (ln_ratio_lt c0 c0 c H0 H0 ltac:(lra)) as HL. rewrite ln_ratio_0 in HL by auto.
  apply Rmult_lt_compat_r; [lra|]. unfold pre_co2. lra.
Qed.

(** *** C49 *)
Lemma c49_rows (rows : ptable R) : forall emis emis', perturb_emissions rows emis = Ok emis' -> complete emis ->
  fr_index emis' = fr_index emis /\ dkeys (fr_cols emis') = dkeys (fr_cols emis) /\ complete emis' /\
  forall t y, cell emis' t y = cell emis t y + pert_sum (on_columns (dmem (fr_cols emis) "CO2") rows) y t.
Proof.
  induction rows as [|[[y0 comp] e] rows IH]; intros emis emis' H HC; cbn [perturb_emissions] in H.
  - inversion H; subst. split; [reflexivity|]. split; [reflexivity|]. split; [exact HC|]. intros. cbn. ring.
  - set (t0 := if (String.eqb comp "CO2" && negb (dmem (fr_cols emis) "CO2"))%bool then "CO2_FF" else comp) in *.
    unfold fr_get, fr_col, key in H. destruct (dget (fr_cols emis) t0) as [col|] eqn:EC; cbn [rbind] in H; [|discriminate].
    destruct (yget (combine (fr_index emis) col) y0) as [old|] eqn:EO; cbn [rbind] in H; [|discriminate].
    match type of H with perturb_emissions rows ?m = _ => set (mid := m) in * end.
    assert (KM : dkeys (fr_cols mid) = dkeys (fr_cols emis)).
    { unfold mid. cbn [fr_cols]. rewrite dkeys_dset. unfold dmem. rewrite EC. reflexivity. }
    assert (CM : complete mid).
    { intros k v Hv. unfold mid in *. cbn [fr_cols fr_index] in *. rewrite dget_dset in Hv. destruct (String.eqb t0 k).
      - inversion Hv; subst. rewrite map_length, combine_length, (HC _ _ EC). apply Nat.min_id.
      - eapply HC; eauto. }
    destruct (IH _ _ H CM) as [I1 [I2 [I3 I4]]]. split; [exact I1|]. split; [congruence|]. split; [exact I3|].
    intros t y. rewrite I4.
    assert (DM : dmem (fr_cols mid) "CO2" = dmem (fr_cols emis) "CO2").
    { destruct (dmem (fr_cols emis) "CO2") eqn:E.
      - apply dget_In_keys. rewrite KM. apply dget_In_keys. exact E.
      - apply dmem_false, dget_None_keys. rewrite KM. apply dget_None_keys, dmem_false. exact E. }
    rewrite DM. cbn [on_columns map fst snd pert_sum]. fold t0. fold (on_columns (dmem (fr_cols emis) "CO2") rows).
    assert (EM : cell mid t y = cell emis t y + if (Z.eqb y0 y && String.eqb t0 t)%bool then e else 0).
    { unfold cell, fr_get, fr_col, key, mid. cbn [fr_cols fr_index]. rewrite dget_dset. destruct (String.eqb_spec t0 t) as [<-|].
      - rewrite EC. cbn [rbind]. rewrite combine_ext_last by (eapply HC; eauto). rewrite andb_true_r.
        destruct (Z.eqb_spec y0 y) as [<-|].
        + rewrite EO. cbn [option_map]. rnum. ring.
        + destruct (yget (combine (fr_index emis) col) y); ring.
      - rewrite andb_false_r. destruct (dget (fr_cols emis) t) as [v|]; cbn [rbind]; [|ring].
        destruct (yget (combine (fr_index emis) v) y); ring. }
    rewrite EM. ring.
Qed.
Lemma c49_twice (rows : ptable R) emis e1 e2 : complete emis -> perturb_emissions rows emis = Ok e1 -> perturb_emissions rows e1 = Ok e2 ->
  forall t y, cell e2 t y = cell emis t y + 2 * pert_sum (on_columns (dmem (fr_cols emis) "CO2") rows) y t.
Proof.
  intros HC H1 H2 t y. destruct (c49_rows _ _ _ H1 HC) as [_ [K1 [C1 V1]]]. destruct (c49_rows _ _ _ H2 C1) as [_ [_ [_ V2]]].
  rewrite V2, V1. assert (DM : dmem (fr_cols e1) "CO2" = dmem (fr_cols emis) "CO2").
  { destruct (dmem (fr_cols emis) "CO2") eqn:E.
    - apply dget_In_keys. rewrite K1. apply dget_In_keys. exact E.
    - apply dmem_false, dget_None_keys. rewrite K1. apply dget_None_keys, dmem_false. exact E. }
  rewrite DM. ring.
Qed.
Lemma c49_unknown (rows : ptable R) y t e emis : (forall f, fr_get emis (if (String.eqb t "CO2" && negb (dmem (fr_cols emis) "CO2"))%bool then "CO2_FF" else t) y <> Ok f) ->
  exists k, perturb_emissions ((y, t, e) :: rows) emis = Err (KeyError k).
Proof.
  intros H. cbn [perturb_emissions]. unfold fr_get, fr_col, key in *.
  destruct (dget (fr_cols emis) _) as [v|]; cbn [rbind] in *; [|eauto].
  destruct (yget (combine (fr_index emis) v) y) as [x|]; cbn [rbind] in *; [exfalso; eapply H; eauto|eauto].
Qed.

(** *** C50 *)
Lemma c50_efficiency (p : hpam R) emis st y t g q : aerosol_forcing p emis st y t = Ok q -> dget (s_gas st) t = Some g -> g_alpha g <> 0 ->
  exists d, em_change emis t (nystart p) y d /\ q = d * g_alpha g.
Proof.
  unfold aerosol_forcing, key. intros H HG HA. rewrite HG in H. cbn [rbind] in H. rnum. destruct (Req_EM_T (g_alpha g) 0); [contradiction|].
  cbn [negb] in H. destruct (fr_get emis t y) as [e|] eqn:E1; cbn [rbind] in H; [|discriminate].
  destruct (fr_get emis t (nystart p)) as [e0|] eqn:E2; cbn [rbind] in H; [|discriminate]. inversion H; subst.
  exists (e - e0). split; [exists e, e0; auto|reflexivity].
Qed.
Lemma c50_factor (p : hpam R) emis st y t g q : aerosol_forcing p emis st y t = Ok q -> dget (s_gas st) t = Some g -> g_alpha g = 0 ->
  forall f, In (t, f) [("SO2", qdirso2 p); ("BC", qbc p); ("OC", qoc p)] ->
  exists d, em_change emis t (nystart p) y d /\ q = f * d.
Proof.
  unfold aerosol_forcing, key. intros H HG HA f Hf. rewrite HG in H. cbn [rbind] in H. rnum. destruct (Req_EM_T (g_alpha g) 0); [|contradiction].
  cbn [negb] in H.
  destruct Hf as [E|[E|[E|[]]]]; inversion E; subst; cbn [ref_emission_species dget String.eqb Ascii.eqb Bool.eqb] in H;
  match type of H with rbind (fr_get emis ?c y) _ = _ =>
    destruct (fr_get emis c y) as [e1|] eqn:E1; cbn [rbind] in H; [|discriminate];
    destruct (fr_get emis c (nystart p)) as [e0|] eqn:E2; cbn [rbind] in H; [|discriminate] end;
  inversion H; subst; exists (e1 - e0); (split; [exists e1, e0; auto|reflexivity]).
Qed.
Lemma c50_indirect (p : hpam R) emis st y g q : aerosol_forcing p emis st y "SO4_IND" = Ok q -> dget (s_gas st) "SO4_IND" = Some g -> g_alpha g = 0 ->
  exists d, em_change emis "SO2" (nystart p) y d /\ q = qindso2 p * d.
Proof.
  unfold aerosol_forcing, key. intros H HG HA. rewrite HG in H. cbn [rbind] in H. rnum. destruct (Req_EM_T (g_alpha g) 0); [|contradiction].
  cbn [negb ref_emission_species dget String.eqb Ascii.eqb Bool.eqb] in H.
  destruct (fr_get emis "SO2" y) as [e1|] eqn:E1; cbn [rbind] in H; [|discriminate].
  destruct (fr_get emis "SO2" (nystart p)) as [e0|] eqn:E2; cbn [rbind] in H; [|discriminate].
  inversion H; subst. exists (e1 - e0). split; [exists e1, e0; auto|reflexivity].
Qed.
