(** * P_CarbonFrame: the frame of the carbon cycle in a completed run (C106) *)
From Coq Require Import Reals Lra Lia.
From Verif Require Import PyBase PyBaseFacts Num M_Gas M_Forcing M_Carbon M_CarbonBox M_CarbonBack M_Driver M_Results M_BoxRun Spec_Gas Spec_Driver Spec_Reader Spec_Results Spec_Coupled Spec_Share
  P_Gas3 P_Results P_Driver3 P_Coupled P_AnyCarbon P_Box2 P_Box3.
From Verif Require P_Input2 P_Gas2 P_Gas4 P_CarbonMisc P_CarbonBack P_Carbon2 P_Coupled2 Spec_Carbon.
From Verif Require Import M_Names.
Open Scope nat_scope.

Section Given.
Context {A : Type} {N : Num A}.
Variables (CC : Type) (year : CC -> nat -> A -> A -> CC * A) (sc : scenario A) (c : inst A).
Notation p := (c_p sc).
Notation HT := (htrace c (any_emi2conc CC year sc) (any_conc2forc CC sc)).
Lemma cy_given y (st st' : hst A) : fill_one_row (c_conc sc) y [] st = Ok st' -> In "CO2" (dkeys (s_conc st)) -> cyears st' = option_map (addy y) (cyears st).
Proof.
  unfold fill_one_row. intros H I.
  assert (Q : forall l s, fold_left (fun acc t => do s <- acc; if smem t [] then Ok s else if dmem (fr_cols (c_conc sc)) t then do v <- fr_get (c_conc sc) t y; conc_set s t y v
      else conc_set s t y (nofZ 0)) l (Ok s) = Ok st' -> cyears st' = (if smem "CO2" l then option_map (addy y) (cyears s) else cyears s)).
  { induction l as [|t l IH]; intros s E; cbn [fold_left] in E; [inversion E; subst; reflexivity|].
    match type of E with fold_left _ l ?x = _ => destruct x as [s1|] eqn:E1 end.
    2:{ rewrite fold_err in E by reflexivity. discriminate. }
    cbn [rbind smem existsb] in E1. rewrite (IH s1 E). clear IH E.
    assert (X : exists v, conc_set s t y v = Ok s1).
    { destruct (dmem (fr_cols (c_conc sc)) t); [|eauto]. destruct (fr_get (c_conc sc) t y); cbn [rbind] in E1; [eauto|discriminate]. }
    destruct X as [v X]. rewrite (cy_set _ _ _ _ _ X). cbn [smem existsb]. rewrite (String.eqb_sym "CO2" t).
    destruct (String.eqb t "CO2"); cbn [orb]; [|reflexivity]. fold (smem "CO2" l). destruct (smem "CO2" l); [|reflexivity].
    destruct (cyears s) as [m|]; [cbn [option_map]; rewrite addy_idem; reflexivity|reflexivity]. }
  rewrite (Q _ _ H). apply smem_In in I. rewrite I. reflexivity.
Qed.
Lemma given_trace n h l h' : HT n h l h' -> d_start c = nystart p -> conc_run p = true -> wf (s_conc (snd h)) -> In "CO2" (dkeys (s_conc (snd h))) ->
  dmem (fr_cols (c_conc sc)) "CO2" = true -> cyears (snd h) = Some (zrange (nystart p) n) ->
  fst h' = fst h /\ cyears (snd h') = Some (zrange (nystart p) (n + List.length l)) /\
  (forall k, k < List.length l -> exists v, fr_get (c_conc sc) "CO2" (nystart p + Z.of_nat (n + k)) = Ok v /\ conc_get (snd h') "CO2" (nystart p + Z.of_nat (n + k)) = Ok v) /\
  (forall y, (y < nystart p + Z.of_nat n)%Z -> conc_get (snd h') "CO2" y = conc_get (snd h) "CO2" y) /\
  dkeys (s_conc (snd h')) = dkeys (s_conc (snd h)) /\ dkeys (s_gas (snd h')) = dkeys (s_gas (snd h)).
Proof.
  intros T DS CR. induction T as [n h|n h fb luc sun q h1 h2 l h3 E1 _ _ E2 T IH]; intros W IC DM C.
  - split; [reflexivity|]. rewrite Nat.add_0_r. split; [exact C|]. split; [cbn [List.length]; intros k L; lia|]. auto.
  - rewrite DS in *. destruct h as [cc st], h1 as [cc1 st1], h2 as [cc2 st2]. unfold any_emi2conc in E1. cbn [fst snd] in *.
    destruct (c39_conc_run _ _ _ _ _ _ _ _ _ _ _ _ _ _ W CR E1) as [-> [K1 [V1 O1]]].
    destruct (V1 "CO2" IC DM) as [v [F1 G1]].
    destruct (P_Coupled2.emi2conc_keeps _ _ _ _ _ _ _ _ _ _ _ _ _ _ E1) as [_ KG].
    assert (CY1 : cyears st1 = option_map (addy (nystart p + Z.of_nat n)) (cyears st)).
    { unfold emi2conc in E1. rewrite CR in E1. destruct (fill_one_row _ _ _ _) as [s1|] eqn:EF; cbn [rbind] in E1; [|discriminate]. inversion E1; subst s1.
      eapply cy_given; eauto. }
    unfold any_conc2forc in E2. cbn [fst snd] in E2. destruct (conc2forc _ _ _ _ _ _ _ _ st1) as [[q' st2']|] eqn:E3; cbn [rbind fst snd] in E2; [|discriminate].
    inversion E2; subst cc2 st2' q'. clear E2. destruct (P_Coupled2.sg_conc2forc _ _ _ _ _ _ _ _ _ _ _ E3) as [G2 [K2 C2]].
    assert (Q : cyears st2 = cyears st1) by (apply cy_other, (oo_conc2forc _ _ _ _ _ _ _ _ _ _ _ E3); discriminate).
    assert (W2 : wf (s_conc st2)).
    { unfold wf in *. change (map fst (s_conc st2)) with (dkeys (s_conc st2)). rewrite K2, K1. exact W. }
    destruct IH as [I1 [I2 [I3 [I4 [I5 I6]]]]]; [exact W2|rewrite K2, K1; exact IC|exact DM| |].
    { rewrite Q, CY1, C. cbn [option_map]. rewrite zrange_end. unfold addy.
      replace (existsb _ _) with false; [reflexivity|]. symmetry. apply not_true_is_false. intros X. apply existsb_exists in X. destruct X as [z [I Y]].
      apply Z.eqb_eq in Y. subst z. apply P_Input2.zrange_In in I. lia. }
    cbn [List.length]. rewrite <- plus_n_Sm. split; [exact I1|]. split; [exact I2|]. split; [|split; [|split; congruence]].
    + intros [|k] L.
      * rewrite Nat.add_0_r. exists v. split; [exact F1|]. rewrite I4 by lia. rewrite C2 by discriminate. exact G1.
      * rewrite <- plus_n_Sm. apply (I3 k). lia.
    + intros y Y. rewrite I4 by lia. rewrite C2 by discriminate. apply O1. lia.
Qed.
End Given.

Section GivenRun.
Context {A : Type} {N : Num A} {T : Type}.
Variables (nan : A) (CC : Type) (year : CC -> nat -> A -> A -> CC * A) (data : CC -> hst A -> dict (list A) -> result (CC * frame A)) (sc : scenario A) (th : thermal A T) (c : inst A) (gt : dict (gas A)) (t0 : T) (cc0 : CC).
Notation p := (c_p sc).
Lemma given_frame r out g : d_rf c = None -> conc_run p = true -> d_start c = nystart p -> d_end c = nyend p ->
  distinct_outputs (t_names th) -> dget (t_names th) "dT_glob" = Some "dtemp" -> get_first_key (t_names th) "dtemp" = Ok "dT_glob" ->
  wf gt -> dget gt "CO2" = Some g -> g_unit g <> "-" -> dmem (fr_cols (c_erf sc)) "CO2" = false -> dmem (fr_cols (c_conc sc)) "CO2" = true ->
  any_run nan CC year data sc th c gt t0 cc0 true true r = out -> o_exn out = None ->
  exists temp conc series cc' cd d, in_array (o_results out) "dT_glob" temp /\ List.length temp = d_years c /\
    given_conc (c_conc sc) "CO2" (nystart p) (d_years c) conc /\
    data cc0 (snd (o_handler out)) series = Ok (cc', cd) /\ dget series "dtemp" = Some temp /\
    dget (o_results out) "carbon cycle" = Some (Fr cd) /\ dget (s_conc (snd (o_handler out))) "CO2" = Some d /\ map snd d = conc.
Proof.
  intros RF CR DS DE DO DN GF W G U M DM E X.
  destruct (any_parts nan CC year data sc th c gt t0 cc0 true r out RF E X) as [s [series [fs [RY [AR [FS [OH OR]]]]]]].
  destruct (run_trace th c _ _ t0 _ r s DO RF DN RY) as [l [temp [HT [LL [DT [LT _]]]]]].
  assert (IC := P_Coupled2.reset_conc_co2 sc gt g G U M). assert (WC := P_Coupled2.reset_conc_wf sc gt W).
  unfold any_add_results in AR.
  destruct (forcing_frame p (snd (l_h s)) (c_erf sc)) as [forc|]; cbn [rbind] in AR; [|discriminate].
  destruct (emission_frame p (c_emis sc)) as [em|]; cbn [rbind] in AR; [|discriminate].
  destruct (concentration_frame nan p (snd (l_h s)) (c_pc sc)) as [cf|] eqn:CF; cbn [rbind] in AR; [|discriminate]. cbv zeta in AR.
  destruct (data (fst (l_h s)) (snd (l_h s)) series) as [[cc' cd]|] eqn:CD; cbn [rbind snd] in AR; [|discriminate].
  assert (FE : fs = [("emissions", em); ("concentrations", cf); ("forcing", forc)] ++ [("carbon cycle", cd)]) by (inversion AR; reflexivity).
  assert (WF : wf (map (fun kv : string * frame A => (fst kv, Fr (snd kv))) fs)) by (rewrite FE; apply nodupb_NoDup; reflexivity).
  assert (GC : dget (o_results out) "carbon cycle" = Some (Fr cd)) by (rewrite OR, dget_dupdate by exact WF; rewrite FE; reflexivity).
  assert (GT : dget (o_results out) "dT_glob" = Some (Arr temp)) by (rewrite OR, dget_dupdate by exact WF; rewrite FE; exact DT).
  unfold feedback_series, h_feedbacks in FS. cbn [mapM] in FS. rewrite GF in FS. cbn [rbind] in FS. unfold arr_of in FS. rewrite DT in FS. cbn [rbind] in FS. inversion FS; subst series.
  assert (C0 : cyears (reset_arrays p gt (c_erf sc)) = Some (zrange (nystart p) 0)).
  { unfold cyears. pose proof IC as IC'. apply dget_In_keys, dmem_true in IC'. destruct IC' as [d0 D0]. rewrite D0. apply dget_Some_In in D0.
    unfold reset_arrays in D0. cbn [s_conc] in D0. apply in_map_iff in D0. destruct D0 as [k [Q _]]. inversion Q; subst. reflexivity. }
  destruct (given_trace CC year sc c 0 _ l (l_h s) HT DS CR WC IC DM C0) as [H1 [H2 [H3 _]]]. cbn [fst snd plus] in *.
  unfold cyears in H2. destruct (dget (s_conc (snd (l_h s))) "CO2") as [d|] eqn:D; [|discriminate H2]. cbn [option_map] in H2. injection H2 as H2.
  assert (LD : List.length d = d_years c) by (rewrite <- (map_length fst), H2, P_Input2.zrange_length; congruence).
  assert (V : forall k v, nth_error (map snd d) k = Some v -> yget d (nystart p + Z.of_nat k) = Some v).
  { clear - H2. revert H2. generalize (nystart p). generalize (List.length l). induction d as [|[y w] d IH]; intros n a H2 k v K; [destruct k; discriminate K|].
    destruct n as [|n]; [discriminate H2|]. rewrite P_Gas2.zrange_S in H2. cbn [map fst] in H2. injection H2 as -> H2. destruct k as [|k]; cbn [map nth_error snd yget] in *.
    - rewrite Z.add_0_r, Z.eqb_refl. exact K.
    - destruct (Z.eqb_spec a (a + Z.of_nat (S k))); [lia|]. replace (a + Z.of_nat (S k))%Z with (a + 1 + Z.of_nat k)%Z by lia. apply (IH n); assumption. }
  exists temp, (map snd d), [("dtemp", temp)], cc', cd, d. rewrite OH. split; [exact GT|]. split; [exact LT|]. split.
  { split; [rewrite map_length; exact LD|]. intros k v K. assert (Lk : k < List.length l).
    { rewrite LL, <- LD, <- (map_length snd d). apply nth_error_Some. congruence. }
    destruct (H3 k Lk) as [v' [F1 F2]]. unfold conc_get in F2. rewrite D in F2. cbn [key rbind] in F2. rewrite (V k v K) in F2. cbn [key] in F2. congruence. }
  split; [rewrite H1 in CD; exact CD|]. split; [reflexivity|]. split; [exact GC|]. split; [exact D|reflexivity].
Qed.
End GivenRun.

(** ** The airborne fraction over the reals *)
Lemma fold_total (l : list R) : fold_right Rplus 0%R l = Spec_Carbon.total l.
Proof. induction l as [|x l IH]; cbn; [reflexivity|]. rewrite IH. reflexivity. Qed.
Lemma share_is nan pre (em conc : list R) : List.length conc = List.length em ->
  airborne_share nan pre em conc (match airborne_fraction em conc pre with Some l => l | None => map (fun _ => nan) em end).
Proof.
  intros L. unfold airborne_share. cbv zeta. destruct (airborne_fraction em conc pre) as [l|] eqn:E.
  - destruct (P_CarbonMisc.airborne_some em conc pre l E L) as [L1 H]. split; [exact L1|]. intros k Lk. right.
    assert (Q : forall j, (j < List.length em)%nat -> fold_right Rplus 0%R (firstn (S j) em) <> 0%R).
    { intros j Lj Z. rewrite fold_total in Z. assert (X : airborne_fraction em conc pre = None) by (apply P_CarbonMisc.airborne_none; eauto). congruence. }
    split; [exact Q|]. specialize (Q k Lk). specialize (H k Lk). rewrite fold_total in *. unfold Spec_Carbon.pgc in H.
    apply (Rmult_eq_reg_r (Spec_Carbon.total (firstn (S k) em))); [|exact Q]. rewrite H. field. exact Q.
  - split; [apply map_length|]. intros k Lk. left. apply P_CarbonMisc.airborne_none in E. destruct E as [j [Lj E]].
    split; [exists j; rewrite fold_total; auto|]. apply nth_error_nth. rewrite nth_error_map. apply nth_error_Some in Lk.
    destruct (nth_error em k); [reflexivity|congruence].
Qed.
Lemma emitted_is (emis : frame R) start n ff af : mapM (fr_get emis "CO2_FF") (zrange start n) = Ok ff -> mapM (fr_get emis "CO2_AFOLU") (zrange start n) = Ok af ->
  emitted emis start n (map2 nadd ff af).
Proof.
  intros F G. assert (LF := P_Gas4.mapM_len _ _ _ F). assert (LG := P_Gas4.mapM_len _ _ _ G). rewrite P_Input2.zrange_length in LF, LG.
  split; [rewrite P_Carbon2.map2_length; lia|]. intros k Lk.
  assert (NZ : nth_error (zrange start n) k = Some (start + Z.of_nat k)%Z) by (apply P_Gas2.zrange_nth; exact Lk).
  exists (nth k ff 0%R), (nth k af 0%R).
  assert (Q : forall (f : Z -> result R) l, mapM f (zrange start n) = Ok l -> f (start + Z.of_nat k)%Z = Ok (nth k l 0%R)).
  { intros f l H. destruct (P_Gas4.mapM_nth _ _ _ _ _ H NZ) as [y [Y1 Y2]]. first [rewrite Y1; f_equal; symmetry; apply nth_error_nth; exact Y2|rewrite Y2; f_equal; symmetry; apply nth_error_nth; exact Y1]. }
  split; [apply Q, F|]. split; [apply Q, G|]. rewrite (P_Carbon2.map2_nth _ _ _ _ 0%R 0%R 0%R) by lia. reflexivity.
Qed.

Lemma years_zrange {A} (p : hpam A) (c : inst A) : d_start c = nystart p -> d_end c = nyend p -> years_of p = zrange (nystart p) (d_years c).
Proof. intros DS DE. unfold years_of, d_years. rewrite DS, DE. reflexivity. Qed.

Section Default.
Context {T : Type}.
Variables (nan : R) (cp : cc_pam R) (sc : scenario R) (th : thermal R T) (c : inst R) (gt : dict (gas R)) (t0 : T) (cc0 : cc_state R).
Notation p := (c_p sc).
Notation col out k v := (in_frame (o_results out) "carbon cycle" k v).
Lemma c106 r out g : d_rf c = None -> conc_run p = false -> d_start c = nystart p -> d_end c = nyend p ->
  distinct_outputs (t_names th) -> dget (t_names th) "dT_glob" = Some "dtemp" -> get_first_key (t_names th) "dtemp" = Ok "dT_glob" ->
  wf gt -> dget gt "CO2" = Some g -> g_unit g <> "-" -> dmem (fr_cols (c_erf sc)) "CO2" = false ->
  wf (fr_cols (c_pc sc)) -> (forall k, In k (dkeys (fr_cols (c_pc sc))) -> dmem (fr_cols (c_erf sc)) k = true) -> (exists k, In k (dkeys (fr_cols (c_pc sc)))) ->
  ~ In "Year" (dkeys gt ++ dkeys (fr_cols (c_pc sc))) ->
  coupled_run nan cp sc th c gt t0 cc0 true true r = out -> o_exn out = None ->
  exists temp conc em af cd, in_array (o_results out) "dT_glob" temp /\ List.length temp = d_years c /\
    in_frame (o_results out) "concentrations" "CO2" conc /\ List.length conc = d_years c /\
    emitted (c_emis sc) (nystart p) (d_years c) em /\ airborne_share nan (preind cp) em conc af /\
    dget (o_results out) "carbon cycle" = Some (Fr cd) /\ fr_index cd = zrange (nystart p) (d_years c) /\
    dkeys (fr_cols cd) = ["Biosphere carbon flux"; "Ocean carbon flux"; "Mixed layer depth"; "CO2 solubility"; "Net Primary Production"; "Airborne fraction CO2"] /\
    dget (fr_cols cd) "Airborne fraction CO2" = Some af /\
    dget (fr_cols cd) "Mixed layer depth" = Some (map (mixed_layer_temp_feedback cp) temp) /\
    dget (fr_cols cd) "CO2 solubility" = Some (map (solubility_temp_feedback cp) temp) /\
    dget (fr_cols cd) "Net Primary Production" = Some (map (fnpp_from_temp cp) temp).
Proof.
  intros RF CR DS DE DO DN GF W G U M WP PE NE NY E X. rewrite any_default in E.
  destruct (any_co2 nan _ _ _ sc th c gt t0 _ true r out g RF CR DS DE DO DN W G U M WP PE NE NY E X) as [temp [ins [A1 [A2 [A3 [A4 [A5 [A6 A7]]]]]]]].
  destruct (any_frame nan _ _ _ sc th c gt t0 _ r out g temp RF CR DS DE DO DN GF W G U M E X A1) as [series [cc' [cd [d [B1 [B2 [B3 [B4 B5]]]]]]]].
  specialize (B5 _ A6 A7). set (conc := snd (any_years _ _ _ _ _)) in *.
  unfold carbon_data in B1. rewrite B4 in B1. cbn [key rbind] in B1. cbv zeta in B1. rewrite CR, B5 in B1. rewrite (years_zrange p c DS DE) in B1.
  destruct (mapM (fr_get (c_emis sc) "CO2_FF") _) as [ff|] eqn:FF; cbn [rbind] in B1; [|discriminate].
  destruct (mapM (fr_get (c_emis sc) "CO2_AFOLU") _) as [af|] eqn:AF; cbn [rbind] in B1; [|discriminate].
  assert (EM := emitted_is _ _ _ _ _ FF AF).
  unfold carbon_output in B1. rewrite B2 in B1. cbn [rbind] in B1. unfold make_frame in B1. destruct (forallb _ _) in B1; cbn [rbind fst snd] in B1; [|discriminate].
  unfold set_col in B1. cbn [fr_index fr_cols] in B1. destruct (Nat.eqb _ _) in B1; cbn [rbind] in B1; [|discriminate].
  assert (Q : cd = {| fr_index := zrange (nystart p) (d_years c); fr_cols := [("Biosphere carbon flux", biosphere_flux cp (ffer_series cp (h_d (fst (o_handler out)))));
     ("Ocean carbon flux", ocean_flux cp (fst (o_handler out))); ("Mixed layer depth", map (mixed_layer_temp_feedback cp) temp);
     ("CO2 solubility", map (solubility_temp_feedback cp) temp); ("Net Primary Production", map (fnpp_from_temp cp) temp);
     ("Airborne fraction CO2", airborne nan cp (map2 nadd ff af) conc)] |}).
  { inversion B1. reflexivity. }
  exists temp, conc, (map2 nadd ff af), (airborne nan cp (map2 nadd ff af) conc), cd.
  split; [exact A1|]. split; [exact A2|]. split; [exact A4|]. split; [exact A6|]. split; [exact EM|].
  split; [apply share_is; destruct EM as [LE _]; rewrite LE; exact A6|]. split; [exact B3|]. rewrite Q. repeat split.
Qed.
End Default.

Section DefaultGiven.
Context {A : Type} {N : Num A} {T : Type}.
Variables (nan : A) (cp : cc_pam A) (sc : scenario A) (th : thermal A T) (c : inst A) (gt : dict (gas A)) (t0 : T) (cc0 : cc_state A).
Notation p := (c_p sc).
Lemma given_columns r out g : d_rf c = None -> conc_run p = true -> d_start c = nystart p -> d_end c = nyend p ->
  distinct_outputs (t_names th) -> dget (t_names th) "dT_glob" = Some "dtemp" -> get_first_key (t_names th) "dtemp" = Ok "dT_glob" ->
  wf gt -> dget gt "CO2" = Some g -> g_unit g <> "-" -> dmem (fr_cols (c_erf sc)) "CO2" = false -> dmem (fr_cols (c_conc sc)) "CO2" = true ->
  coupled_run nan cp sc th c gt t0 cc0 true true r = out -> o_exn out = None ->
  exists temp conc h res cd, in_array (o_results out) "dT_glob" temp /\ List.length temp = d_years c /\
    given_conc (c_conc sc) "CO2" (nystart p) (d_years c) conc /\ back_calculate cp cc0 (combine conc temp) = (h, res) /\
    dget (o_results out) "carbon cycle" = Some (Fr cd) /\ fr_index cd = zrange (nystart p) (d_years c) /\
    fr_cols cd = [("Biosphere carbon flux", biosphere_flux cp (ffer_series_conc cp conc temp)); ("Ocean carbon flux", ocean_flux cp h);
      ("Mixed layer depth", map (mixed_layer_temp_feedback cp) temp); ("CO2 solubility", map (solubility_temp_feedback cp) temp); ("Net Primary Production", map (fnpp_from_temp cp) temp);
      ("Airborne fraction CO2", airborne nan cp (map fst res) conc); ("Emissions", map fst res)].
Proof.
  intros RF CR DS DE DO DN GF W G U M DM E X. rewrite any_default in E.
  destruct (given_frame nan _ _ _ sc th c gt t0 _ r out g RF CR DS DE DO DN GF W G U M DM E X) as [temp [conc [series [cc' [cd [d [B0 [B1 [B2 [B3 [B4 [B5 [B6 B7]]]]]]]]]]]]].
  unfold carbon_data in B3. rewrite B6 in B3. cbn [key rbind] in B3. cbv zeta in B3. rewrite CR, B7 in B3. rewrite (years_zrange p c DS DE) in B3.
  unfold carbon_output in B3. rewrite B4 in B3. cbn [rbind] in B3. destruct (back_calculate cp cc0 (combine conc temp)) as [h res] eqn:BC.
  unfold make_frame in B3. destruct (forallb _ _) in B3; cbn [rbind fst snd] in B3; [|discriminate].
  unfold set_col in B3. cbn [fr_index fr_cols] in B3. destruct (Nat.eqb _ _) in B3; cbn [rbind fr_index fr_cols] in B3; [|discriminate].
  destruct (Nat.eqb _ _) in B3; cbn [rbind] in B3; [|discriminate].
  exists temp, conc, h, res, cd. split; [exact B0|]. split; [exact B1|]. split; [exact B2|]. split; [exact BC|]. split; [exact B5|].
  assert (Q : cd = {| fr_index := zrange (nystart p) (d_years c); fr_cols := [("Biosphere carbon flux", biosphere_flux cp (ffer_series_conc cp conc temp)); ("Ocean carbon flux", ocean_flux cp h);
      ("Mixed layer depth", map (mixed_layer_temp_feedback cp) temp); ("CO2 solubility", map (solubility_temp_feedback cp) temp); ("Net Primary Production", map (fnpp_from_temp cp) temp);
      ("Airborne fraction CO2", airborne nan cp (map fst res) conc); ("Emissions", map fst res)] |}) by (inversion B3; reflexivity).
  rewrite Q. split; reflexivity.
Qed.
End DefaultGiven.

Lemma c106_given {T} nan (cp : cc_pam R) sc (th : thermal R T) c gt t0 cc0 r out g : d_rf c = None -> conc_run (c_p sc) = true -> d_start c = nystart (c_p sc) -> d_end c = nyend (c_p sc) ->
  distinct_outputs (t_names th) -> dget (t_names th) "dT_glob" = Some "dtemp" -> get_first_key (t_names th) "dtemp" = Ok "dT_glob" ->
  wf gt -> dget gt "CO2" = Some g -> g_unit g <> "-" -> dmem (fr_cols (c_erf sc)) "CO2" = false -> dmem (fr_cols (c_conc sc)) "CO2" = true ->
  coupled_run nan cp sc th c gt t0 cc0 true true r = out -> o_exn out = None ->
  exists temp conc h res cd, in_array (o_results out) "dT_glob" temp /\ List.length temp = d_years c /\
    given_conc (c_conc sc) "CO2" (nystart (c_p sc)) (d_years c) conc /\ back_calculate cp cc0 (combine conc temp) = (h, res) /\
    dget (o_results out) "carbon cycle" = Some (Fr cd) /\ fr_index cd = zrange (nystart (c_p sc)) (d_years c) /\
    dkeys (fr_cols cd) = ["Biosphere carbon flux"; "Ocean carbon flux"; "Mixed layer depth"; "CO2 solubility"; "Net Primary Production"; "Airborne fraction CO2"; "Emissions"] /\
    dget (fr_cols cd) "Mixed layer depth" = Some (map (mixed_layer_temp_feedback cp) temp) /\
    dget (fr_cols cd) "CO2 solubility" = Some (map (solubility_temp_feedback cp) temp) /\
    dget (fr_cols cd) "Net Primary Production" = Some (map (fnpp_from_temp cp) temp) /\
    exists em af, dget (fr_cols cd) "Emissions" = Some em /\ dget (fr_cols cd) "Airborne fraction CO2" = Some af /\ List.length em = d_years c /\
      airborne_share nan (preind cp) em conc af /\
      let again := snd (cc_run cp cc0 0 (combine em temp)) in List.length again = d_years c /\
      forall k, (k < d_years c)%nat -> (Rabs (nth k conc 0 - nth k again 0) / nth k conc 0 <= 1 / 10000000)%R \/ exists e, nth_error res k = Some (e, 100%nat).
Proof.
  intros RF CR DS DE DO DN GF W G U M DM E X.
  destruct (given_columns nan cp sc th c gt t0 cc0 r out g RF CR DS DE DO DN GF W G U M DM E X) as [temp [conc [h [res [cd [B0 [B1 [B2 [B3 [B4 [B5 B6]]]]]]]]]]].
  exists temp, conc, h, res, cd. split; [exact B0|]. split; [exact B1|]. split; [exact B2|]. split; [exact B3|]. split; [exact B4|]. split; [exact B5|]. rewrite B6.
  split; [reflexivity|]. split; [reflexivity|]. split; [reflexivity|]. split; [reflexivity|].
  exists (map fst res), (airborne nan cp (map fst res) conc). split; [reflexivity|]. split; [reflexivity|].
  destruct B2 as [LC _].
  assert (F := P_CarbonBack.back_forward cp (combine conc temp) cc0 0%nat). unfold back_calculate in B3.
  match type of B3 with back_years cp cc0 0 ?a ?b _ = _ => specialize (F a b) end. rewrite B3 in F.
  assert (CM : map snd (combine conc temp) = temp /\ map fst (combine conc temp) = conc).
  { assert (Q : List.length conc = List.length temp) by congruence. clear - Q. revert temp Q. induction conc as [|x l IH]; intros [|y m] Q; try discriminate Q; [split; reflexivity|].
    cbn in Q. injection Q as Q. destruct (IH m Q) as [I1 I2]. cbn [combine map fst snd]. rewrite I1, I2. split; reflexivity. }
  destruct CM as [C1 C2]. rewrite C1, C2 in F. destruct (cc_run cp cc0 0 (combine (map fst res) temp)) as [h2 cs]. destruct F as [_ [F1 F2]]. cbn [snd].
  rewrite combine_length in F1. assert (LR : List.length res = d_years c) by lia.
  split; [rewrite map_length; exact LR|]. split; [apply share_is; rewrite map_length; congruence|]. cbv zeta.
  assert (L2 : List.length (combine conc (map snd res)) = List.length cs) by (clear - F2; induction F2; cbn [List.length]; congruence). rewrite combine_length, map_length in L2. split; [lia|].
  intros k Lk. assert (NC : nth_error (combine conc (map snd res)) k = Some (nth k conc 0%R, nth k (map snd res) 0%nat)).
  { rewrite (nth_error_nth' _ (0%R, 0%nat)) by (rewrite combine_length, map_length; lia). f_equal. apply combine_nth. rewrite map_length. congruence. }
  assert (NA : nth_error cs k = Some (nth k cs 0%R)) by (apply nth_error_nth'; lia).
  assert (H : forall (R1 : R * nat -> R -> Prop) l m, Forall2 R1 l m -> forall k x y, nth_error l k = Some x -> nth_error m k = Some y -> R1 x y).
  { clear. intros R1 l m H. induction H; intros [|k] a b A1 A2; cbn in A1, A2; try discriminate; [injection A1 as <-; injection A2 as <-; assumption|eauto]. }
  destruct (H _ _ _ F2 k _ _ NC NA) as [Y|Y]; cbn [fst snd] in Y; [left|right].
  - cbn in Y. destruct (Rlt_dec _ _) as [Z|Z] in Y; [discriminate|]. unfold Rdiv in *. lra.
  - destruct (nth_error res k) as [[e n]|] eqn:NR.
    + exists e. do 2 f_equal. assert (Z : nth k (map snd res) 0%nat = n) by (apply nth_error_nth; rewrite nth_error_map, NR; reflexivity). rewrite Z in Y. exact Y.
    + apply nth_error_None in NR. lia.
Qed.

Lemma c106_box {T} nan (bp : box_pam R) sc (th : thermal R T) c gt t0 r out g : d_rf c = None -> conc_run (c_p sc) = false -> d_start c = nystart (c_p sc) -> d_end c = nyend (c_p sc) ->
  distinct_outputs (t_names th) -> dget (t_names th) "dT_glob" = Some "dtemp" -> get_first_key (t_names th) "dtemp" = Ok "dT_glob" ->
  wf gt -> dget gt "CO2" = Some g -> g_unit g <> "-" -> dmem (fr_cols (c_erf sc)) "CO2" = false ->
  wf (fr_cols (c_pc sc)) -> (forall k, In k (dkeys (fr_cols (c_pc sc))) -> dmem (fr_cols (c_erf sc)) k = true) -> (exists k, In k (dkeys (fr_cols (c_pc sc)))) ->
  ~ In "Year" (dkeys gt ++ dkeys (fr_cols (c_pc sc))) ->
  box_coupled_run nan bp sc th c gt t0 true true r = out -> o_exn out = None ->
  exists conc em af, in_frame (o_results out) "concentrations" "CO2" conc /\ List.length conc = d_years c /\
    emitted (c_emis sc) (nystart (c_p sc)) (d_years c) em /\ in_frame (o_results out) "carbon cycle" "Airborne fraction CO2" af /\ airborne_share nan 278 em conc af.
Proof.
  intros RF CR DS DE DO DN GF W G U M WP PE NE NY E X.
  destruct (c93_frame nan bp sc th c gt t0 r out g RF CR DS DE DO DN GF W G U M WP PE NE NY E X) as [temp [ins [cd [ff [af [A1 [A2 [A3 [A4 [A5 [A6 [A7 [A8 [A9 [A10 A11]]]]]]]]]]]]]]].
  rewrite (years_zrange (c_p sc) c DS DE) in A9, A10. assert (EM := emitted_is _ _ _ _ _ A9 A10).
  assert (LF := P_Gas4.mapM_len _ _ _ A9). assert (LG := P_Gas4.mapM_len _ _ _ A10). rewrite P_Input2.zrange_length in LF, LG.
  assert (Q : map (fun _ : R => nan) ff = map (fun _ => nan) (map2 nadd ff af)).
  { clear - LF LG. assert (L : List.length ff = List.length af) by congruence. clear LF LG. revert af L. induction ff as [|x l IH]; intros [|y m] L; try discriminate L; [reflexivity|].
    cbn in L. injection L as L. cbn [map map2]. f_equal. apply IH. exact L. }
  set (conc := snd (box_run bp box_init ins)) in *.
  exists conc, (map2 nadd ff af), (match airborne_fraction (map2 nadd ff af) conc (nofZ 278) with Some l => l | None => map (fun _ => nan) ff end).
  split; [exact A6|]. split; [exact A5|]. split; [exact EM|]. split; [exists cd; split; [exact A8|rewrite A11; reflexivity]|].
  rewrite Q. apply share_is. destruct EM as [LE _]. rewrite LE. exact A5.
Qed.
