(** * P_Forc7: ozone forcing of a year (C77), precalculated columns and their forcing (C39, C77) *)
From Coq Require Import Reals Lra Lia.
From Verif Require Import PyBase PyBaseFacts Num M_Gas M_Forcing Spec_Gas Spec_Forc P_Gas2 P_Gas3 P_Gas4 P_Forc P_Forc2 P_Forc3 P_Forc4 P_Forc5 P_Forc6.
Open Scope R_scope.

Lemma c77_ozone (p : hpam R) conc_in emis erf pert y luc sun st st' tot nh sh w g :
  conc2forc p conc_in emis erf pert y luc sun st = Ok ((tot, nh, sh, w), st') -> wf (s_forc st) -> y <> nystart p ->
  In "TROP_O3" (dkeys (s_forc st)) -> dget (s_gas st) "TROP_O3" = Some g -> g_alpha g = 0 ->
  exists m mr nox noxr co cor voc vocr v0,
    conc_get st "CH4" y = Ok m /\ fr_get conc_in "CH4" (ref_yr p) = Ok mr /\
    fr_get emis "NOx" y = Ok nox /\ fr_get emis "NOx" (ref_yr p) = Ok noxr /\
    fr_get emis "CO" y = Ok co /\ fr_get emis "CO" (ref_yr p) = Ok cor /\
    fr_get emis "NMVOC" y = Ok voc /\ fr_get emis "NMVOC" (ref_yr p) = Ok vocr /\
    conc_get st "TROP_O3" (nystart p) = Ok v0 /\
    let v := 30 + 67 / 10 * (ln m - ln mr) + 17 / 100 * (nox - noxr) + 14 / 10000 * (co - cor) + 42 / 10000 * (voc - vocr) in
    let f := forc_at (s_forc st') "TROP_O3" (forc_ix p y) - pert_sum (pert_rows pert) y "TROP_O3" in
    (v0 <> 30 -> f = (v - v0) / (30 - v0) * qo3 p * g_sarf g) /\ (v0 = 30 -> f = 0).
Proof.
  intros HR HW NY HK EG HA.
  destruct (stages_exist _ _ _ _ _ _ _ _ _ _ _ _ _ _ HR HW) as [t3 [st3 [nh3 [sh3 [a1 [pre [a2 [s [S3 SL SF SP SD SR SN SS SE SA SW]]]]]]]]].
  pose proof (three_spec _ _ _ _ _ _ _ S3) as X. cbv zeta in X. destruct X as [G3 [C3 [L3 _]]].
  destruct SL as [L1 G1 _ _ O1 _ _ _ _ _ Z1]. destruct SR as [L2 _ _ _ P2 _ _ _ _]. cbn [r_st] in *.
  destruct (forc_set_at _ _ _ _ _ _ SE) as [_ [_ [L4 [_ [_ [V4 _]]]]]].
  assert (K3 : dkeys (s_forc st3) = dkeys (s_forc st)) by apply L3.
  assert (K1 : dkeys (s_forc (r_st a1)) = dkeys (s_forc st)) by (rewrite <- K3; apply L1).
  destruct (Z1 "TROP_O3" HK eq_refl) as [_ [s0 [q [s1 [D1 [D2 [D3 [D4 [D5 D6]]]]]]]]].
  assert (FV : forc_at (s_forc st') "TROP_O3" (forc_ix p y) - pert_sum (pert_rows pert) y "TROP_O3" = q).
  { rewrite V4. change (String.eqb "TROP_O3" TOTAL) with false. cbn [andb]. rewrite P2 by (rewrite K1; exact HK). rewrite D2. ring. }
  rewrite FV. clear FV.
  unfold component in D1. cbn [String.eqb Ascii.eqb Bool.eqb] in D1. change (is_aerosol "TROP_O3") with false in D1. rewrite D3, G3, EG in D1. cbv iota in D1.
  assert (EB : neqb (g_alpha g) (nofZ 0) = true) by (rnum; rewrite HA; destruct (Req_EM_T 0 0); congruence). rewrite EB in D1. cbn [negb] in D1.
  destruct (tropospheric_ozone p conc_in emis y s0) as [[q0 s2]|] eqn:TO; cbn [rbind] in D1; [|discriminate]. unfold sarf in D1. rewrite D3, G3, EG in D1. cbn [key rbind fst snd] in D1.
  injection D1 as HQ _.
  destruct (c42_formula _ _ _ _ _ _ _ TO NY) as (m & mr & nox & noxr & co & cor & voc & vocr & v0 & F1 & F2 & F3 & F4 & F5 & F6 & F7 & F8 & F9 & _ & F10 & F11).
  assert (CG : forall t y', conc_get st3 t y' = conc_get st t y') by (intros; unfold conc_get; rewrite C3; reflexivity).
  rewrite D5, CG in F1 by discriminate. rewrite D6, CG in F9 by congruence.
  exists m, mr, nox, noxr, co, cor, voc, vocr, v0. do 9 (split; [assumption|]). cbv zeta. rewrite <- HQ. rnum.
  split; intros HV; [rewrite F10 by exact HV; ring|rewrite F11 by exact HV; ring].
Qed.
Close Scope R_scope.

Section Pre.
Context {A : Type} {N : Num A}.
Local Open Scope num_scope.

Lemma vanilla_plain (gt gv : dict (gas A)) : vanilla gt = Ok gv -> forall k g, In (k, g) gv <-> In (k, g) gt /\ ~ In k ["CO2"; "CH4"; "N2O"] /\ g_unit g <> "-".
Proof.
  unfold vanilla. destruct (forallb _ _); [|discriminate]. intros H; inversion H; subst gv. intros k g. rewrite filter_In. cbn [fst snd].
  rewrite negb_true_iff, orb_false_iff. assert (Q : smem k three_main = false <-> ~ In k ["CO2"; "CH4"; "N2O"]).
  { destruct (smem k three_main) eqn:E; split; intros X; try congruence; [apply smem_In in E; contradiction|]. intros I. apply smem_In in I. unfold three_main in E. congruence. }
  rewrite Q. destruct (String.eqb_spec (g_unit g) "-"); split; intros; intuition congruence.
Qed.
Lemma precalc_conc_keys (p : hpam A) gv conc emis pc : precalc_conc p gv conc emis = Ok pc -> dkeys (fr_cols pc) = dkeys gv.
Proof.
  unfold precalc_conc. destruct (mapM _ gv) as [cols|] eqn:E; cbn [rbind]; [|discriminate]. destruct (fr_index conc) as [|c0 ci]; [discriminate|].
  assert (K : dkeys cols = dkeys gv).
  { eapply mapM_keys'; [|exact E]. intros [k g] z H. cbn [fst] in H. destruct (fr_col conc k); cbn [rbind] in H; [|discriminate]. inversion H. reflexivity. }
  destruct (_ || _)%bool.
  - intros H; inversion H; subst. cbn [fr_cols]. rewrite <- K. unfold dkeys. rewrite map_map. reflexivity.
  - destruct (fr_index emis) as [|e0 ei]; [discriminate|]. match goal with |- context [mapM ?f gv] => destruct (mapM f gv) as [out|] eqn:E2; cbn [rbind]; [|discriminate] end.
    intros H; inversion H; subst. cbn [fr_cols]. eapply mapM_keys'; [|exact E2]. intros [k g] z Q. cbn [fst snd] in Q.
    destruct (fr_col conc k); cbn [rbind] in Q; [|discriminate]. destruct (fr_col emis k); cbn [rbind] in Q; [|discriminate].
    destruct (precalc_column _ _ _); cbn [rbind] in Q; [|discriminate]. inversion Q. reflexivity.
Qed.
Lemma precalc_erf_keys gv (pc erf : frame A) : precalc_erf gv pc = Ok erf -> dkeys (fr_cols erf) = dkeys gv.
Proof.
  unfold precalc_erf. destruct (fr_index pc) as [|y0 ys] eqn:E0; [discriminate|]. match goal with |- context [mapM ?f gv] => destruct (mapM f gv) as [cols|] eqn:E; cbn [rbind]; [|discriminate] end.
  intros H; inversion H; subst. cbn [fr_cols]. eapply mapM_keys'; [|exact E]. intros [k g] z Q. cbn [fst snd] in Q. destruct (fr_col pc k) as [v|]; cbn [rbind] in Q; [|discriminate].
  destruct v; [discriminate|]. inversion Q. reflexivity.
Qed.
Lemma precalc_erf_get gv (pc erf : frame A) k g : precalc_erf gv pc = Ok erf -> wf gv -> dget gv k = Some g ->
  exists c0 v, dget (fr_cols pc) k = Some (c0 :: v) /\ dget (fr_cols erf) k = Some (map (fun c => g_sarf g * g_alpha g * (c - c0)) (c0 :: v)).
Proof.
  intros H W G. assert (K := precalc_erf_keys _ _ _ H). unfold precalc_erf in H. destruct (fr_index pc) as [|y0 ys] eqn:E0; [discriminate|].
  match type of H with context [mapM ?f gv] => destruct (mapM f gv) as [cols|] eqn:E; cbn [rbind] in H; [|discriminate] end. inversion H; subst. cbn [fr_cols] in *.
  assert (M : In k (dkeys cols)) by (rewrite K; apply dget_In_keys, dmem_true; eauto). apply dget_In_keys, dmem_true in M. destruct M as [e M]. assert (I := dget_Some_In _ _ _ M).
  destruct (mapM_In _ _ _ _ E I) as [[k' g'] [I' Q]]. cbn [fst snd] in Q. destruct (fr_col pc k') as [v|] eqn:EV; cbn [rbind] in Q; [|discriminate]. destruct v as [|c0 v]; [discriminate|].
  injection Q as EK EE. subst k' e. assert (g' = g) by (apply wf_In_dget in I'; [congruence|exact W]). subst g'.
  exists c0, v. split; [|exact M]. unfold fr_col, key in EV. destruct (dget (fr_cols pc) k); congruence.
Qed.
Lemma wf_vanilla (gt gv : dict (gas A)) : vanilla gt = Ok gv -> wf gt -> wf gv.
Proof.
  unfold vanilla. destruct (forallb _ _); [|discriminate]. intros H; inversion H; subst gv. unfold wf, dkeys. clear. induction gt as [|x gt IH]; intros W; [exact W|].
  inversion W; subst. cbn [filter]. destruct (negb _); [|apply IH; assumption]. cbn [map]. constructor; [|apply IH; assumption]. intros I. apply in_map_iff in I. destruct I as [z [E I]]. apply filter_In in I.
  apply H1. rewrite <- E. apply in_map. apply I.
Qed.
Lemma c39_columns (p : hpam A) gt conc emis pert pc erf : precalculate p gt conc emis pert = Ok (pc, erf) ->
  (forall k, In k (dkeys (fr_cols pc)) <-> exists g, In (k, g) gt /\ ~ In k ["CO2"; "CH4"; "N2O"] /\ g_unit g <> "-") /\
  (forall k, In k (dkeys (fr_cols erf)) <-> In k (dkeys (fr_cols pc)) \/ k = "STRAT_O3") /\
  (forall k, In k (gases_spicy gt erf) <-> In k (dkeys gt) /\ ~ In k (dkeys (fr_cols pc)) /\ k <> "STRAT_O3").
Proof.
  unfold precalculate. destruct (vanilla gt) as [gv|] eqn:V; cbn [rbind]; [|discriminate].
  destruct (precalc_conc _ _ _ _) as [pc0|] eqn:PC; cbn [rbind]; [|discriminate]. destruct (precalc_erf _ _) as [erf0|] eqn:PE; cbn [rbind]; [|discriminate].
  destruct (strat_o3_column _ _ _) as [so|] eqn:SO; cbn [rbind]; [|discriminate]. destruct (Nat.eqb _ _); [|discriminate]. cbv zeta.
  match goal with |- context [rbind ?x _ = _] => destruct x as [cols|] eqn:EC; cbn [rbind]; [|discriminate] end. intros H; inversion H; subst pc0 erf. clear H.
  assert (K1 := precalc_conc_keys _ _ _ _ _ PC). assert (K2 := precalc_erf_keys _ _ _ PE). 
  assert (K3 : dkeys cols = dkeys (dset (fr_cols erf0) "STRAT_O3" so)).
  { destruct pert as [pt|]; [|congruence]. eapply mapM_keys'; [|exact EC]. intros [k v] z Q. unfold pert_vanilla_col in Q. cbn [fst snd] in Q. destruct (assign_rows _ _ _ _); cbn [rbind] in Q; [|discriminate]. inversion Q. reflexivity. }
  assert (C1 : forall k, In k (dkeys (fr_cols pc)) <-> exists g, In (k, g) gt /\ ~ In k ["CO2"; "CH4"; "N2O"] /\ g_unit g <> "-").
  { intros k. rewrite K1. unfold dkeys. rewrite in_map_iff. split.
    - intros [[k' g] [E I]]. cbn [fst] in E. subst k'. exists g. apply (vanilla_plain _ _ V). exact I.
    - intros [g I]. apply (vanilla_plain _ _ V) in I. exists (k, g). split; [reflexivity|exact I]. }
  assert (C2 : forall k, In k (dkeys cols) <-> In k (dkeys (fr_cols pc)) \/ k = "STRAT_O3").
  { intros k. rewrite K3, dkeys_dset, K1, <- K2. destruct (dmem (fr_cols erf0) "STRAT_O3") eqn:D.
    - apply dget_In_keys in D. split; [tauto|]. intros [I| ->]; assumption.
    - rewrite in_app_iff. cbn. split; intros [I|I]; auto; intuition congruence. }
  split; [exact C1|]. cbn [fr_cols]. split; [exact C2|]. intros k. unfold gases_spicy. cbn [fr_cols]. rewrite filter_In, negb_true_iff, dmem_false.
  rewrite dget_None_keys. rewrite C2. tauto.
Qed.
Lemma c77_precalculated (p : hpam A) gt conc emis pc erf k g : precalculate p gt conc emis None = Ok (pc, erf) -> wf gt -> dget gt k = Some g -> k <> "STRAT_O3" ->
  In k (dkeys (fr_cols pc)) ->
  exists c e, dget (fr_cols pc) k = Some c /\ dget (fr_cols erf) k = Some e /\ List.length e = List.length c /\
    forall i ci c0, nth_error c i = Some ci -> nth_error c 0 = Some c0 -> nth_error e i = Some (g_sarf g * g_alpha g * (ci - c0)).
Proof.
  intros H W G NS I. destruct (proj1 (c39_columns _ _ _ _ _ _ _ H) k) as [X _]. destruct (X I) as [g' [I' P]]. clear X.
  assert (g' = g) by (apply wf_In_dget in I'; [congruence|exact W]). subst g'.
  unfold precalculate in H. destruct (vanilla gt) as [gv|] eqn:V; cbn [rbind] in H; [|discriminate].
  destruct (precalc_conc _ _ _ _) as [pc0|] eqn:PC; cbn [rbind] in H; [|discriminate]. destruct (precalc_erf _ _) as [erf0|] eqn:PE; cbn [rbind] in H; [|discriminate].
  destruct (strat_o3_column _ _ _) as [so|] eqn:SO; cbn [rbind] in H; [|discriminate]. destruct (Nat.eqb _ _); [|discriminate]. inversion H; subst pc0 erf. clear H. cbn [fr_cols].
  assert (WV := wf_vanilla _ _ V W). assert (GV : dget gv k = Some g) by (apply wf_In_dget; [exact WV|]; apply (vanilla_plain _ _ V); auto).
  destruct (precalc_erf_get _ _ _ _ _ PE WV GV) as [c0 [v [E1 E2]]]. exists (c0 :: v). eexists. split; [exact E1|]. split; [rewrite dget_dset_neq by congruence; exact E2|].
  split; [apply map_length|]. intros i ci c0' N1 N2. cbn [nth_error] in N2. injection N2 as <-. rewrite nth_error_map, N1. reflexivity.
Qed.

(** ** Concentrations that start late *)
Lemma slice_neg {B} (l : list B) a b : (a <= b < 0)%Z -> (0 <= a + Z.of_nat (List.length l))%Z ->
  pyslice l a b = firstn (Z.to_nat (b - a)) (skipn (Z.to_nat (a + Z.of_nat (List.length l))) l).
Proof.
  intros H1 H2. unfold pyslice, slice_pos. destruct (Z.ltb_spec a 0); [|lia]. destruct (Z.ltb_spec b 0); [|lia]. rewrite !Z.max_r by lia. f_equal. lia.
Qed.
Lemma skipn_zrange f n k : skipn k (zrange f n) = zrange (f + Z.of_nat k) (n - k).
Proof.
  revert f n. induction k as [|k IH]; intros f n; [rewrite Nat.sub_0_r, Z.add_0_r; reflexivity|]. destruct n as [|n]; [destruct k; reflexivity|].
  rewrite P_Gas2.zrange_S. cbn [skipn]. rewrite IH. cbn [Nat.sub]. f_equal. lia.
Qed.
Lemma firstn_zrange f n k : (k <= n)%nat -> firstn k (zrange f n) = zrange f k.
Proof.
  revert f n. induction k as [|k IH]; intros f n L; [reflexivity|]. destruct n as [|n]; [lia|]. rewrite !P_Gas2.zrange_S. cbn [firstn]. rewrite IH by lia. reflexivity.
Qed.
Lemma c39_late (p : hpam A) gv conc emis pc cf cn ef en : yearly conc cf cn -> yearly emis ef en -> wf gv ->
  conc_run p = false -> (nystart p < emstart p)%Z -> (emstart p < cf)%Z -> (emstart p < nyend p)%Z -> (cf - nystart p <= Z.of_nat cn)%Z ->
  (ef <= emstart p)%Z -> (nyend p < ef + Z.of_nat en)%Z ->
  precalc_conc p gv conc emis = Ok pc ->
  fr_index pc = zrange (nystart p + Z.of_nat cn) (Z.to_nat (emstart p - nystart p)) ++ zrange (emstart p) (Z.to_nat (nyend p + 1 - emstart p)) /\
  ~ In (nystart p) (fr_index pc).
Proof.
  intros [IC _] [IE _] W CR L1 L2 L3 L4 L5 L6 H. assert (F : fr_index pc = zrange (nystart p + Z.of_nat cn) (Z.to_nat (emstart p - nystart p)) ++ zrange (emstart p) (Z.to_nat (nyend p + 1 - emstart p))).
  { unfold precalc_conc in H. rewrite CR in H. destruct (mapM _ gv) as [cols|] in H; cbn [rbind] in H; [|discriminate].
    destruct cn as [|cn]; [lia|]. destruct en as [|en]; [lia|]. rewrite IC, IE in H. rewrite (P_Gas2.zrange_S cf cn), (P_Gas2.zrange_S ef en) in H. rewrite <- (P_Gas2.zrange_S cf cn), <- (P_Gas2.zrange_S ef en) in H.
    destruct (Z.leb_spec (nyend p) (emstart p)); [lia|]. cbn [orb] in H. match type of H with context [mapM ?f gv] => destruct (mapM f gv) as [out|]; cbn [rbind] in H; [|discriminate] end.
    inversion H; subst pc. cbn [fr_index]. f_equal.
    - rewrite slice_neg by (rewrite ?P_Gas2.zrange_len; lia). rewrite P_Gas2.zrange_len, skipn_zrange, firstn_zrange by lia. f_equal; lia.
    - replace (nyend p - ef + 1)%Z with (nyend p + 1 - ef)%Z by lia. apply pyslice_zrange; lia. }
  split; [exact F|]. rewrite F, in_app_iff. unfold zrange. rewrite !in_map_iff. intros [[i [E I]]|[i [E I]]]; lia.
Qed.
End Pre.
