(** * P_Box2: runs with the box carbon cycle (C93) *)
From Coq Require Import Lia.
From Verif Require Import PyBase PyBaseFacts Num M_Gas M_Forcing M_Carbon M_CarbonBox M_Driver M_Results M_BoxRun Spec_Gas Spec_Driver Spec_Reader Spec_Results Spec_Coupled
  P_Gas3 P_Results P_Driver3 P_Coupled P_Coupled2 P_AnyCarbon.
From Verif Require P_Input2 P_Gas2 P_CarbonMisc.

Section Ozone.
Context {A : Type} {N : Num A}.
(** the forcing calculation changes ozone only *)
Definition only_ozone (st st' : hst A) : Prop := forall k, k <> "TROP_O3" -> dget (s_conc st') k = dget (s_conc st) k.
Lemma oo_refl st : only_ozone st st. Proof. intros k _. reflexivity. Qed.
Lemma oo_trans a b c : only_ozone a b -> only_ozone b c -> only_ozone a c.
Proof. intros X Y k D. rewrite Y, X; auto. Qed.
Lemma oo_forc_set p st t y q st' : forc_set p st t y q = Ok st' -> only_ozone st st'.
Proof.
  unfold forc_set. destruct (key t (dget (s_forc st) t)) as [v|]; cbn [rbind]; [|discriminate]. destruct (Nat.ltb _ _); [|discriminate].
  intros H. inversion H; subst. intros k _. reflexivity.
Qed.
Lemma oo_conc_set st y v st' : conc_set st "TROP_O3" y v = Ok st' -> only_ozone st st'.
Proof.
  unfold conc_set. destruct (key _ _) as [d|]; cbn [rbind]; [|discriminate]. intros H. inversion H; subst. intros k D. cbn [s_conc set_conc].
  rewrite dget_dset. destruct (String.eqb_spec "TROP_O3" k); [congruence|reflexivity].
Qed.
Ltac bind H E := match type of H with rbind ?x _ = Ok _ => destruct x eqn:E; cbn [rbind] in H; [|discriminate H] end.
Lemma oo_three p y st tot nh sh st' : forc_three_main p y st = Ok (tot, nh, sh, st') -> only_ozone st st'.
Proof.
  unfold forc_three_main. intros H.
  do 9 (match type of H with rbind ?x _ = Ok _ => destruct x; cbn [rbind] in H; [|discriminate H] end). cbv zeta in H.
  bind H E1. bind H E2. bind H E3. inversion H; subst.
  eapply oo_trans; [eapply oo_forc_set; exact E1|]. eapply oo_trans; eapply oo_forc_set; eassumption.
Qed.
Lemma oo_component p conc_in emis y luc t st q st' : component p conc_in emis y luc t st = Ok (q, st') -> only_ozone st st'.
Proof.
  unfold component. intros H.
  destruct (String.eqb t "LANDUSE"); [inversion H; subst; apply oo_refl|].
  destruct (is_aerosol t); [bind H E1; inversion H; subst; apply oo_refl|].
  match type of H with (if ?b then _ else _) = _ => destruct b end.
  { bind H E1. bind H E2. bind H E3. inversion H; subst; apply oo_refl. }
  destruct (String.eqb t "TROP_O3").
  { bind H E1. bind H E2. inversion H; subst. unfold tropospheric_ozone in E1. bind E1 E3. bind E1 E4. bind E1 E5. bind E1 E6. inversion E1; subst. cbn [snd].
    eapply oo_conc_set; exact E4. }
  destruct (String.eqb t "STRAT_H2O"); [bind H E1; bind H E2|]; inversion H; subst; apply oo_refl.
Qed.
Lemma oo_turns p conc_in emis y luc l : forall a a', fold_left (tracer_turn p conc_in emis y luc) l (Ok a) = Ok a' -> only_ozone (r_st a) (r_st a').
Proof.
  induction l as [|t l IH]; intros a a' H; cbn [fold_left] in H; [inversion H; subst; apply oo_refl|].
  match type of H with fold_left _ l ?x = _ => destruct x as [a1|] eqn:E end.
  2:{ rewrite fold_err in H by reflexivity. discriminate. }
  eapply oo_trans; [|apply IH; exact H]. unfold tracer_turn in E. cbn [rbind] in E.
  destruct (smem t _); [inversion E; subst; apply oo_refl|].
  destruct (component p conc_in emis y luc t (r_st a)) as [[q s1]|] eqn:E1; cbn [rbind] in E; [|discriminate]. cbv zeta in E. cbn [fst snd] in E.
  destruct (forc_set p s1 t y q) as [s2|] eqn:E2; cbn [rbind] in E; [|discriminate]. inversion E; subst. cbn [r_st].
  eapply oo_trans; [eapply oo_component; exact E1|eapply oo_forc_set; exact E2].
Qed.
Lemma oo_pert p y l : forall a a', fold_left (pert_turn p y) l (Ok a) = Ok a' -> only_ozone (r_st a) (r_st a').
Proof.
  induction l as [|[[y' t] v] l IH]; intros a a' H; cbn [fold_left] in H; [inversion H; subst; apply oo_refl|].
  match type of H with fold_left _ l ?x = _ => destruct x as [a1|] eqn:E end.
  2:{ rewrite fold_err in H by reflexivity. discriminate. }
  eapply oo_trans; [|apply IH; exact H]. unfold pert_turn in E. cbn [rbind] in E.
  destruct (dmem _ t); [|inversion E; subst; apply oo_refl]. bind E E1. bind E E2. inversion E; subst. cbn [r_st]. eapply oo_forc_set; exact E2.
Qed.
Lemma oo_conc2forc p conc_in emis erf pert y luc sun st q st' : conc2forc p conc_in emis erf pert y luc sun st = Ok (q, st') -> only_ozone st st'.
Proof.
  unfold conc2forc. intros H.
  destruct (forc_three_main p y st) as [[[[tot nh] sh] s1]|] eqn:E1; cbn [rbind] in H; [|discriminate].
  destruct (fold_left _ (dkeys (s_forc s1)) _) as [a|] eqn:E2; cbn [rbind] in H; [|discriminate].
  destruct (tot_vanilla erf y) as [pre|]; cbn [rbind] in H; [|discriminate]. cbv zeta in H.
  match type of H with rbind ?x _ = _ => destruct x as [a2|] eqn:E3; cbn [rbind] in H; [|discriminate] end.
  match type of H with rbind ?x _ = _ => destruct x as [a3|] eqn:E4; cbn [rbind] in H; [|discriminate] end.
  destruct (forc_set p (r_st a3) "Total_forcing" y (r_tot a3)) as [s4|] eqn:E5; cbn [rbind] in H; [|discriminate].
  destruct (abs_total p y s4); cbn [rbind] in H; [|discriminate]. inversion H; subst.
  apply oo_three in E1. apply oo_turns in E2. cbn [r_st] in E2. apply oo_forc_set in E5.
  assert (S3 : only_ozone (r_st a) (r_st a2)).
  { destruct pert as [pt|]; [apply oo_pert in E3; exact E3|inversion E3; subst; apply oo_refl]. }
  assert (S4 : only_ozone (r_st a2) (r_st a3)).
  { destruct (just_one p); [bind E4 E6|]; inversion E4; subst; apply oo_refl. }
  exact (oo_trans _ _ _ E1 (oo_trans _ _ _ E2 (oo_trans _ _ _ S3 (oo_trans _ _ _ S4 E5)))).
Qed.
End Ozone.

(** ** The years stored for CO2 *)
Definition addy (y : Z) (l : list Z) : list Z := if existsb (Z.eqb y) l then l else l ++ [y].
Lemma addy_idem y l : addy y (addy y l) = addy y l.
Proof.
  unfold addy. destruct (existsb (Z.eqb y) l) eqn:E; [rewrite E; reflexivity|].
  rewrite existsb_app. cbn [existsb]. rewrite Z.eqb_refl. rewrite orb_true_r. reflexivity.
Qed.
Lemma yset_keys {V} (d : list (Z * V)) y v : map fst (yset d y v) = addy y (map fst d).
Proof.
  unfold addy. induction d as [|[k w] d IH]; cbn [yset map fst existsb]; [reflexivity|].
  rewrite (Z.eqb_sym y k). destruct (Z.eqb_spec k y) as [->|D]; cbn [orb map fst]; [reflexivity|].
  rewrite IH. destruct (existsb (Z.eqb y) (map fst d)); reflexivity.
Qed.
Section Years.
Context {A : Type} {N : Num A}.
Variables (S Fb : Type) (co2 : S -> Z -> A -> Fb -> S * A) (p : hpam A) (conc_in emis nat_ch4 nat_n2o : frame A).
Definition cyears (st : hst A) : option (list Z) := option_map (map fst) (dget (s_conc st) "CO2").
Lemma cy_other (st st' : hst A) : dget (s_conc st') "CO2" = dget (s_conc st) "CO2" -> cyears st' = cyears st.
Proof. unfold cyears. intros ->. reflexivity. Qed.
Lemma cy_set st t y v st' : conc_set st t y v = Ok st' -> cyears st' = if String.eqb t "CO2" then option_map (addy y) (cyears st) else cyears st.
Proof.
  unfold conc_set. unfold key. destruct (dget (s_conc st) t) as [d|] eqn:G; cbn [rbind]; [|discriminate]. intros H. inversion H; subst. unfold cyears. cbn [s_conc set_conc].
  rewrite dget_dset. destruct (String.eqb_spec t "CO2") as [->|D]; [|reflexivity]. rewrite G. cbn [option_map]. rewrite yset_keys. reflexivity.
Qed.
Lemma cy_fill y st st' : fill_one_row conc_in y ["CO2"] st = Ok st' -> cyears st' = cyears st.
Proof.
  unfold fill_one_row. generalize (dkeys (s_conc st)). intros l. revert st. induction l as [|t l IH]; intros st H; cbn [fold_left rbind] in H.
  - inversion H; subst. reflexivity.
  - match type of H with fold_left _ l ?x = _ => destruct x as [s1|] eqn:E end.
    2:{ rewrite fold_err in H by reflexivity. discriminate. }
    rewrite (IH s1 H). clear IH H. cbn [smem existsb] in E. rewrite orb_false_r in E.
    destruct (String.eqb_spec t "CO2") as [->|D]; [inversion E; subst; reflexivity|].
    assert (Q : forall v, conc_set st t y v = Ok s1 -> cyears s1 = cyears st).
    { intros v X. rewrite (cy_set _ _ _ _ _ X). destruct (String.eqb_spec t "CO2"); [contradiction|reflexivity]. }
    destruct (dmem (fr_cols conc_in) t).
    + destruct (fr_get conc_in t y); cbn [rbind] in E; [|discriminate]. eapply Q; eauto.
    + eapply Q; eauto.
Qed.
Lemma cy_co2 cc y fb st cc' st' : co2_year S Fb co2 emis cc y fb st = Ok (cc', st') -> cyears st' = option_map (addy y) (cyears st).
Proof.
  unfold co2_year. destruct (co2_emission emis st y); cbn [rbind]; [|discriminate].
  destruct (conc_set st "CO2" y _) as [s1|] eqn:E; cbn [rbind]; [|discriminate]. intros H; inversion H; subst. rewrite (cy_set _ _ _ _ _ E). reflexivity.
Qed.
Lemma cy_tracer y fb cc st t cc' st' : emi2conc_tracer S Fb co2 p conc_in emis nat_ch4 nat_n2o y fb (Ok (cc, st)) t = Ok (cc', st') ->
  cyears st' = cyears st \/ cyears st' = option_map (addy y) (cyears st).
Proof.
  unfold emi2conc_tracer. cbn [rbind]. unfold key at 1. destruct (dget (s_gas st) t) as [g|] eqn:EG; cbn [rbind]; [|discriminate].
  destruct (String.eqb (g_unit g) "-"); [intros H; inversion H; subst; left; reflexivity|].
  destruct (String.eqb_spec t "CO2") as [->|D]; [intros H; right; eapply cy_co2; exact H|].
  match goal with |- (do _ <- ?e; _) = _ -> _ => destruct e as [prev|]; cbn [rbind]; [|discriminate] end.
  match goal with |- (do _ <- ?e; _) = _ -> _ => destruct e as [[g' q']|]; cbn [rbind]; [|discriminate] end.
  destruct (fr_get emis t y); cbn [rbind]; [|discriminate].
  match goal with |- (do _ <- ?e; _) = _ -> _ => destruct e as [s1|] eqn:E; cbn [rbind]; [|discriminate] end.
  intros H; inversion H; subst. left. rewrite (cy_set _ _ _ _ _ E). destruct (String.eqb_spec t "CO2"); [contradiction|reflexivity].
Qed.
Lemma cy_emi2conc y fb cc st cc' st' : conc_run p = false -> emi2conc S Fb co2 p conc_in emis nat_ch4 nat_n2o y fb cc st = Ok (cc', st') ->
  cyears st' = option_map (addy y) (cyears st).
Proof.
  intros CR. unfold emi2conc. rewrite CR. destruct (y <? emstart p)%Z.
  { destruct (co2_year _ _ _ _ _ _ _ _) as [[c1 s1]|] eqn:E; cbn [rbind]; [|discriminate]. cbn [fst snd].
    destruct (fill_one_row conc_in y ["CO2"] s1) as [s2|] eqn:E2; cbn [rbind]; [|discriminate]. intros H; inversion H; subst.
    rewrite (cy_fill _ _ _ E2). eapply cy_co2; exact E. }
  assert (Z0 : cyears (add_row_of_zeros y st) = option_map (addy y) (cyears st)).
  { unfold cyears, add_row_of_zeros. cbn [s_conc set_conc]. induction (s_conc st) as [|[k d] l IH]; [reflexivity|]. cbn [map fst snd dget].
    destruct (String.eqb k "CO2"); [cbn [option_map]; rewrite yset_keys; reflexivity|exact IH]. }
  assert (G : forall l cc st, fold_left (emi2conc_tracer S Fb co2 p conc_in emis nat_ch4 nat_n2o y fb) l (Ok (cc, st)) = Ok (cc', st') ->
     option_map (addy y) (cyears st) = cyears st -> cyears st' = cyears st).
  { induction l as [|t l IH]; intros c0 s0 H I; cbn [fold_left] in H; [inversion H; subst; reflexivity|].
    match type of H with fold_left _ l ?x = _ => destruct x as [[c1 s1]|] eqn:E end.
    2:{ rewrite fold_err in H by reflexivity. discriminate. }
    assert (Q : cyears s1 = cyears s0) by (destruct (cy_tracer _ _ _ _ _ _ _ E) as [->| ->]; [reflexivity|exact I]).
    rewrite (IH _ _ H); [exact Q|]. rewrite Q. exact I. }
  intros H. rewrite (G _ _ _ H); [exact Z0|]. rewrite Z0. destruct (cyears st) as [l|]; [cbn [option_map]; rewrite addy_idem; reflexivity|reflexivity].
Qed.
End Years.

Section Trace.
Context {A : Type} {N : Num A}.
Variables (CC : Type) (year : CC -> nat -> A -> A -> CC * A) (sc : scenario A) (c : inst A).
Notation p := (c_p sc).
Lemma zrange_end a n : zrange a (S n) = zrange a n ++ [(a + Z.of_nat n)%Z].
Proof.
  unfold zrange. rewrite seq_S, map_app. reflexivity.
Qed.
Lemma trace_years n h l h' : htrace c (any_emi2conc CC year sc) (any_conc2forc CC sc) n h l h' -> d_start c = nystart p -> conc_run p = false ->
  cyears (snd h) = Some (zrange (nystart p) n) -> cyears (snd h') = Some (zrange (nystart p) (n + List.length l)).
Proof.
  intros T DS CR. induction T as [n h|n h fb luc sun q h1 h2 l h3 E1 _ _ E2 T IH]; intros C; [rewrite Nat.add_0_r; exact C|].
  rewrite DS in *. unfold any_emi2conc in E1. destruct h as [cc st], h1 as [cc1 st1], h2 as [cc2 st2]. cbn [fst snd] in *.
  apply cy_emi2conc in E1; [|exact CR]. unfold any_conc2forc in E2. cbn [fst snd] in E2.
  destruct (conc2forc _ _ _ _ _ _ _ _ st1) as [[q' st2']|] eqn:E3; cbn [rbind fst snd] in E2; [|discriminate]. inversion E2; subst cc2 st2' q'. clear E2.
  cbn [List.length]. rewrite <- plus_n_Sm. apply IH.
  assert (Q : cyears st2 = cyears st1) by (apply cy_other, (oo_conc2forc _ _ _ _ _ _ _ _ _ _ _ E3); discriminate).
  rewrite Q, E1, C. cbn [option_map]. rewrite zrange_end. unfold addy.
  replace (existsb _ _) with false; [reflexivity|]. symmetry. apply not_true_is_false. intros X. apply existsb_exists in X. destruct X as [z [I Y]].
  apply Z.eqb_eq in Y. subst z. apply P_Input2.zrange_In in I. lia.
Qed.
End Trace.

Lemma years_values {V} (d : list (Z * V)) : forall a (l : list V), map fst d = zrange a (List.length l) ->
  (forall k v, nth_error l k = Some v -> yget d (a + Z.of_nat k) = Some v) -> map snd d = l.
Proof.
  induction d as [|[y w] d IH]; intros a l E G.
  - destruct l as [|v l]; [reflexivity|discriminate E].
  - destruct l as [|v l]; [discriminate E|]. cbn [List.length] in E. rewrite P_Gas2.zrange_S in E. cbn [map fst] in E. injection E as E1 E2. subst y.
    assert (G0 := G 0%nat v eq_refl). rewrite Z.add_0_r in G0. cbn [yget] in G0. rewrite Z.eqb_refl in G0. injection G0 as ->. cbn [map snd]. f_equal.
    apply (IH (a + 1)%Z); [exact E2|]. intros k x X. specialize (G (S k) x X). cbn [yget] in G.
    replace (a + Z.of_nat (S k))%Z with (a + 1 + Z.of_nat k)%Z in G by lia. destruct (Z.eqb_spec a (a + 1 + Z.of_nat k)); [lia|exact G].
Qed.

Section Run.
Context {A : Type} {N : Num A} {T : Type}.
Variables (nan : A) (CC : Type) (year : CC -> nat -> A -> A -> CC * A) (data : CC -> hst A -> dict (list A) -> result (CC * frame A)) (sc : scenario A) (th : thermal A T) (c : inst A) (gt : dict (gas A)) (t0 : T) (cc0 : CC).
Notation p := (c_p sc).
Lemma any_frame r out g temp : d_rf c = None -> conc_run p = false -> d_start c = nystart p -> d_end c = nyend p ->
  distinct_outputs (t_names th) -> dget (t_names th) "dT_glob" = Some "dtemp" -> get_first_key (t_names th) "dtemp" = Ok "dT_glob" ->
  wf gt -> dget gt "CO2" = Some g -> g_unit g <> "-" -> dmem (fr_cols (c_erf sc)) "CO2" = false ->
  any_run nan CC year data sc th c gt t0 cc0 true true r = out -> o_exn out = None -> in_array (o_results out) "dT_glob" temp ->
  exists series cc' cd d, data (fst (o_handler out)) (snd (o_handler out)) series = Ok (cc', cd) /\ dget series "dtemp" = Some temp /\
    dget (o_results out) "carbon cycle" = Some (Fr cd) /\ dget (s_conc (snd (o_handler out))) "CO2" = Some d /\
    forall conc, List.length conc = d_years c ->
      (forall k v, nth_error conc k = Some v -> conc_get (snd (o_handler out)) "CO2" (nystart p + Z.of_nat k) = Ok v) -> map snd d = conc.
Proof.
  intros RF CR DS DE DO DN GF W G U M E X TA.
  destruct (any_parts nan CC year data sc th c gt t0 cc0 true r out RF E X) as [s [series [fs [RY [AR [FS [OH OR]]]]]]].
  destruct (run_trace th c _ _ t0 _ r s DO RF DN RY) as [l [temp' [HT [LL [DT _]]]]].
  assert (IC := P_Coupled2.reset_conc_co2 sc gt g G U M).
  unfold any_add_results in AR.
  destruct (forcing_frame p (snd (l_h s)) (c_erf sc)) as [forc|]; cbn [rbind] in AR; [|discriminate].
  destruct (emission_frame p (c_emis sc)) as [em|]; cbn [rbind] in AR; [|discriminate].
  destruct (concentration_frame nan p (snd (l_h s)) (c_pc sc)) as [cf|] eqn:CF; cbn [rbind] in AR; [|discriminate]. cbv zeta in AR.
  destruct (data (fst (l_h s)) (snd (l_h s)) series) as [[cc' cd]|] eqn:CD; cbn [rbind snd] in AR; [|discriminate].
  assert (FE : fs = [("emissions", em); ("concentrations", cf); ("forcing", forc)] ++ [("carbon cycle", cd)]) by (inversion AR; reflexivity).
  assert (WF : wf (map (fun kv : string * frame A => (fst kv, Fr (snd kv))) fs)) by (rewrite FE; apply nodupb_NoDup; reflexivity).
  assert (GC : dget (o_results out) "carbon cycle" = Some (Fr cd)) by (rewrite OR, dget_dupdate by exact WF; rewrite FE; reflexivity).
  assert (GT : dget (o_results out) "dT_glob" = Some (Arr temp')) by (rewrite OR, dget_dupdate by exact WF; rewrite FE; exact DT).
  unfold in_array in TA. rewrite GT in TA. inversion TA; subst temp'. clear TA.
  unfold feedback_series, h_feedbacks in FS. cbn [mapM] in FS. rewrite GF in FS. cbn [rbind] in FS. unfold arr_of in FS. rewrite DT in FS. cbn [rbind] in FS. inversion FS; subst series.
  assert (CY := trace_years CC year sc c 0 _ l (l_h s) HT DS CR). cbn [fst snd plus] in CY.
  assert (C0 : cyears (reset_arrays p gt (c_erf sc)) = Some (zrange (nystart p) 0)).
  { unfold cyears. apply dget_In_keys, dmem_true in IC. destruct IC as [d0 D0]. rewrite D0. apply dget_Some_In in D0.
    unfold reset_arrays in D0. cbn [s_conc] in D0. apply in_map_iff in D0. destruct D0 as [k [Q _]]. inversion Q; subst. reflexivity. }
  specialize (CY C0). unfold cyears in CY. destruct (dget (s_conc (snd (l_h s))) "CO2") as [d|] eqn:D; [|discriminate CY]. cbn [option_map] in CY. injection CY as CY.
  exists [("dtemp", temp)], cc', cd, d. rewrite OH. split; [exact CD|]. split; [reflexivity|]. split; [exact GC|]. split; [exact D|].
  intros conc LC CG. apply (years_values d (nystart p)); [rewrite CY; congruence|]. intros k v K. specialize (CG k v K).
  unfold conc_get in CG. rewrite D in CG. cbn [key rbind] in CG. destruct (yget d _) as [v'|]; cbn [key] in CG; congruence.
Qed.
End Run.
