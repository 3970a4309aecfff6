(** * P_Coupled2: CO2 in a coupled run (C79) *)
From Coq Require Import Lia.
From Verif Require Import PyBase PyBaseFacts Num M_Gas M_Forcing M_Carbon M_CarbonBack M_Driver M_Results Spec_Gas Spec_Driver Spec_Reader Spec_Results Spec_Coupled P_Gas3 P_Results P_Driver3 P_Coupled.
From Verif Require P_Input2 P_Gas2.

Section Frame.
Context {A : Type} {N : Num A}.
(** what the forcing calculation leaves alone *)
Definition same_gases (st st' : hst A) : Prop :=
  s_gas st' = s_gas st /\ dkeys (s_conc st') = dkeys (s_conc st) /\ forall k y, k <> "TROP_O3" -> conc_get st' k y = conc_get st k y.
Lemma sg_refl st : same_gases st st. Proof. split; [|split]; auto. Qed.
Lemma sg_trans a b c : same_gases a b -> same_gases b c -> same_gases a c.
Proof. intros [G1 [K1 C1]] [G2 [K2 C2]]. split; [congruence|]. split; [congruence|]. intros k y D. rewrite C2, C1; auto. Qed.
Lemma sg_forc_set p st t y q st' : forc_set p st t y q = Ok st' -> same_gases st st'.
Proof.
  unfold forc_set. destruct (key t (dget (s_forc st) t)) as [v|]; cbn [rbind]; [|discriminate]. destruct (Nat.ltb _ _); [|discriminate].
  intros H. inversion H; subst. split; [|split]; reflexivity.
Qed.
Ltac bind H E := match type of H with rbind ?x _ = Ok _ => destruct x eqn:E; cbn [rbind] in H; [|discriminate H] end.
Lemma sg_three p y st tot nh sh st' : forc_three_main p y st = Ok (tot, nh, sh, st') -> same_gases st st'.
Proof.
  unfold forc_three_main. intros H.
  do 9 (match type of H with rbind ?x _ = Ok _ => destruct x; cbn [rbind] in H; [|discriminate H] end). cbv zeta in H.
  bind H E1. bind H E2. bind H E3. inversion H; subst.
  eapply sg_trans; [eapply sg_forc_set; exact E1|]. eapply sg_trans; eapply sg_forc_set; eassumption.
Qed.
Lemma sg_component p conc_in emis y luc t st q st' : component p conc_in emis y luc t st = Ok (q, st') -> same_gases st st'.
Proof.
  unfold component. intros H.
  destruct (String.eqb t "LANDUSE"); [inversion H; subst; apply sg_refl|].
  destruct (is_aerosol t); [bind H E1; inversion H; subst; apply sg_refl|].
  match type of H with (if ?b then _ else _) = _ => destruct b end.
  { bind H E1. bind H E2. bind H E3. inversion H; subst; apply sg_refl. }
  destruct (String.eqb t "TROP_O3").
  { bind H E1. bind H E2. inversion H; subst. unfold tropospheric_ozone in E1. bind E1 E3. bind E1 E4. bind E1 E5. bind E1 E6. inversion E1; subst. cbn [snd].
    destruct (conc_set_rest _ _ _ _ _ E4) as [G [F K]]. split; [exact G|]. split; [exact K|]. intros k y' D.
    rewrite (conc_set_get _ _ _ _ _ _ _ E4). destruct (String.eqb_spec "TROP_O3" k); [congruence|reflexivity]. }
  destruct (String.eqb t "STRAT_H2O"); [bind H E1; bind H E2|]; inversion H; subst; apply sg_refl.
Qed.
Lemma sg_turns p conc_in emis y luc l : forall a a', fold_left (tracer_turn p conc_in emis y luc) l (Ok a) = Ok a' -> same_gases (r_st a) (r_st a').
Proof.
  induction l as [|t l IH]; intros a a' H; cbn [fold_left] in H; [inversion H; subst; apply sg_refl|].
  match type of H with fold_left _ l ?x = _ => destruct x as [a1|] eqn:E end.
  2:{ rewrite fold_err in H by reflexivity. discriminate. }
  eapply sg_trans; [|apply IH; exact H]. unfold tracer_turn in E. cbn [rbind] in E.
  destruct (smem t _); [inversion E; subst; apply sg_refl|].
  destruct (component p conc_in emis y luc t (r_st a)) as [[q s1]|] eqn:E1; cbn [rbind] in E; [|discriminate]. cbv zeta in E. cbn [fst snd] in E.
  destruct (forc_set p s1 t y q) as [s2|] eqn:E2; cbn [rbind] in E; [|discriminate]. inversion E; subst. cbn [r_st].
  eapply sg_trans; [eapply sg_component; exact E1|eapply sg_forc_set; exact E2].
Qed.
Lemma sg_pert p y l : forall a a', fold_left (pert_turn p y) l (Ok a) = Ok a' -> same_gases (r_st a) (r_st a').
Proof.
  induction l as [|[[y' t] v] l IH]; intros a a' H; cbn [fold_left] in H; [inversion H; subst; apply sg_refl|].
  match type of H with fold_left _ l ?x = _ => destruct x as [a1|] eqn:E end.
  2:{ rewrite fold_err in H by reflexivity. discriminate. }
  eapply sg_trans; [|apply IH; exact H]. unfold pert_turn in E. cbn [rbind] in E.
  destruct (dmem _ t); [|inversion E; subst; apply sg_refl]. bind E E1. bind E E2. inversion E; subst. cbn [r_st]. eapply sg_forc_set; exact E2.
Qed.
Lemma sg_conc2forc p conc_in emis erf pert y luc sun st q st' : conc2forc p conc_in emis erf pert y luc sun st = Ok (q, st') -> same_gases st st'.
Proof.
  unfold conc2forc. intros H.
  destruct (forc_three_main p y st) as [[[[tot nh] sh] s1]|] eqn:E1; cbn [rbind] in H; [|discriminate].
  destruct (fold_left _ (dkeys (s_forc s1)) _) as [a|] eqn:E2; cbn [rbind] in H; [|discriminate].
  destruct (tot_vanilla erf y) as [pre|]; cbn [rbind] in H; [|discriminate]. cbv zeta in H.
  match type of H with rbind ?x _ = _ => destruct x as [a2|] eqn:E3; cbn [rbind] in H; [|discriminate] end.
  match type of H with rbind ?x _ = _ => destruct x as [a3|] eqn:E4; cbn [rbind] in H; [|discriminate] end.
  destruct (forc_set p (r_st a3) "Total_forcing" y (r_tot a3)) as [s4|] eqn:E5; cbn [rbind] in H; [|discriminate].
  destruct (abs_total p y s4); cbn [rbind] in H; [|discriminate]. inversion H; subst.
  apply sg_three in E1. apply sg_turns in E2. cbn [r_st] in E2. apply sg_forc_set in E5.
  assert (S3 : same_gases (r_st a) (r_st a2)).
  { destruct pert as [pt|]; [apply sg_pert in E3; exact E3|inversion E3; subst; apply sg_refl]. }
  assert (S4 : same_gases (r_st a2) (r_st a3)).
  { destruct (just_one p); [bind E4 E6|]; inversion E4; subst; apply sg_refl. }
  exact (sg_trans _ _ _ E1 (sg_trans _ _ _ E2 (sg_trans _ _ _ S3 (sg_trans _ _ _ S4 E5)))).
Qed.
End Frame.

Section CO2.
Context {A : Type} {N : Num A}.
Variables (S Fb : Type) (co2 : S -> Z -> A -> Fb -> S * A) (p : hpam A) (conc_in emis nat_ch4 nat_n2o : frame A).
Notation E2C := (emi2conc S Fb co2 p conc_in emis nat_ch4 nat_n2o).
Notation turn := (emi2conc_tracer S Fb co2 p conc_in emis nat_ch4 nat_n2o).
Definition keeps (st st' : hst A) : Prop := s_forc st' = s_forc st /\ dkeys (s_gas st') = dkeys (s_gas st).
Lemma keeps_refl st : keeps st st. Proof. split; reflexivity. Qed.
Lemma keeps_trans x y z : keeps x y -> keeps y z -> keeps x z.
Proof. intros [A1 A2] [B1 B2]. split; congruence. Qed.
Lemma conc_set_keeps st t y v st' : conc_set st t y v = Ok st' -> keeps st st'.
Proof. intros H. destruct (conc_set_rest _ _ _ _ _ H) as [G [F _]]. split; congruence. Qed.

Lemma fill_keeps y avoid st st' : fill_one_row conc_in y avoid st = Ok st' -> keeps st st'.
Proof.
  unfold fill_one_row. generalize (dkeys (s_conc st)). intros l. revert st. induction l as [|t l IH]; intros st H; cbn [fold_left rbind] in H.
  - inversion H; subst. apply keeps_refl.
  - match type of H with fold_left _ l ?x = _ => destruct x as [s1|] eqn:E end.
    2:{ rewrite fold_err in H by reflexivity. discriminate. }
    apply keeps_trans with s1; [|apply IH; exact H].
    destruct (smem t avoid); [inversion E; subst; apply keeps_refl|].
    destruct (dmem (fr_cols conc_in) t).
    + destruct (fr_get conc_in t y); cbn [rbind] in E; [|discriminate]. eapply conc_set_keeps; eauto.
    + eapply conc_set_keeps; eauto.
Qed.
Lemma co2_keeps cc y fb st cc' st' : co2_year S Fb co2 emis cc y fb st = Ok (cc', st') -> keeps st st'.
Proof.
  unfold co2_year. destruct (co2_emission emis st y); cbn [rbind]; [|discriminate].
  destruct (conc_set st "CO2" y _) as [s1|] eqn:E; cbn [rbind]; [|discriminate]. intros H; inversion H; subst. eapply conc_set_keeps; eauto.
Qed.
Lemma tracer_keeps y fb cc st t cc' st' :
  emi2conc_tracer S Fb co2 p conc_in emis nat_ch4 nat_n2o y fb (Ok (cc, st)) t = Ok (cc', st') -> keeps st st'.
Proof.
  unfold emi2conc_tracer. cbn [rbind]. unfold key at 1. destruct (dget (s_gas st) t) as [g|] eqn:EG; cbn [rbind]; [|discriminate].
  destruct (String.eqb (g_unit g) "-"); [intros H; inversion H; subst; apply keeps_refl|].
  destruct (String.eqb t "CO2"); [apply co2_keeps|].
  match goal with |- (do _ <- ?e; _) = _ -> _ => destruct e as [prev|]; cbn [rbind]; [|discriminate] end.
  match goal with |- (do _ <- ?e; _) = _ -> _ => destruct e as [[g' q']|]; cbn [rbind]; [|discriminate] end.
  destruct (fr_get emis t y); cbn [rbind]; [|discriminate].
  match goal with |- (do _ <- ?e; _) = _ -> _ => destruct e as [s1|] eqn:E; cbn [rbind]; [|discriminate] end.
  intros H; inversion H; subst. apply conc_set_keeps in E. eapply keeps_trans; [|exact E]. split; cbn [s_forc s_gas set_gas]; [reflexivity|].
  rewrite dkeys_dset. unfold dmem. rewrite EG. reflexivity.
Qed.
Lemma emi2conc_keeps y fb cc st cc' st' : E2C y fb cc st = Ok (cc', st') -> keeps st st'.
Proof.
  unfold emi2conc. destruct (conc_run p).
  { destruct (fill_one_row conc_in y [] st) as [s1|] eqn:E; cbn [rbind]; [|discriminate]. intros H; inversion H; subst. eapply fill_keeps; eauto. }
  destruct (y <? emstart p)%Z.
  { destruct (co2_year _ _ _ _ _ _ _ _) as [[c1 s1]|] eqn:E; cbn [rbind]; [|discriminate]. cbn [fst snd].
    destruct (fill_one_row conc_in y ["CO2"] s1) as [s2|] eqn:E2; cbn [rbind]; [|discriminate]. intros H; inversion H; subst.
    eapply keeps_trans; [eapply co2_keeps; eauto|eapply fill_keeps; eauto]. }
  assert (G : forall l cc st, fold_left (emi2conc_tracer S Fb co2 p conc_in emis nat_ch4 nat_n2o y fb) l (Ok (cc, st)) = Ok (cc', st') -> keeps st st').
  { induction l as [|t l IH]; intros c0 s0 H; cbn [fold_left] in H; [inversion H; subst; apply keeps_refl|].
    match type of H with fold_left _ l ?x = _ => destruct x as [[c1 s1]|] eqn:E end.
    2:{ rewrite fold_err in H by reflexivity. discriminate. }
    eapply keeps_trans; [eapply tracer_keeps; eauto|eapply IH; eauto]. }
  intros H. apply G in H. eapply keeps_trans; [|exact H]. split; reflexivity.
Qed.

Lemma turns_gas y fb l : forall cc cc' (st st' : hst A), fold_left (turn y fb) l (Ok (cc, st)) = Ok (cc', st') -> dget (s_gas st') "CO2" = dget (s_gas st) "CO2".
Proof.
  induction l as [|t l IH]; intros cc cc' st st' H; cbn [fold_left] in H; [inversion H; subst; reflexivity|].
  match type of H with fold_left _ l ?x = _ => destruct x as [[c1 s1]|] eqn:E end.
  2:{ rewrite fold_err in H by reflexivity. discriminate. }
  rewrite (IH _ _ _ _ H). destruct (String.eqb_spec t "CO2") as [->|NE].
  - unfold emi2conc_tracer in E. cbn [rbind] in E. destruct (key "CO2" _) as [g|]; cbn [rbind] in E; [|discriminate].
    destruct (String.eqb (g_unit g) "-"); [inversion E; subst; reflexivity|]. cbn [String.eqb Ascii.eqb Bool.eqb] in E.
    destruct (co2_year_spec _ _ _ _ _ _ _ _ _ _ E) as [ff [af [g' [_ [_ [_ [_ C]]]]]]]. destruct (conc_set_rest _ _ _ _ _ C) as [G _]. rewrite G. reflexivity.
  - destruct (turn_spec _ _ _ _ _ _ _ _ _ _ _ _ _ _ _ E) as [_ [_ [G _]]]. apply G. congruence.
Qed.
Lemma e2c_co2 y fb cc cc' (st st' : hst A) g : wf (s_conc st) -> conc_run p = false -> In "CO2" (dkeys (s_conc st)) ->
  dget (s_gas st) "CO2" = Some g -> g_unit g <> "-" -> E2C y fb cc st = Ok (cc', st') ->
  (exists ff af, fr_get emis "CO2_FF" y = Ok ff /\ fr_get emis "CO2_AFOLU" y = Ok af /\
     let r := co2 cc y (nadd (nadd ff af) (g_nat g)) fb in cc' = fst r /\ conc_get st' "CO2" y = Ok (snd r)) /\
  dkeys (s_conc st') = dkeys (s_conc st) /\ dget (s_gas st') "CO2" = Some g /\
  (forall t y', y' <> y -> conc_get st' t y' = conc_get st t y').
Proof.
  intros W R IC G U H. destruct (Z.ltb_spec y (emstart p)) as [L|L].
  - destruct (c39_before _ _ _ _ _ _ _ _ _ _ _ _ _ _ W R L H) as [[ff [af [g' [E1 [E2 [E3 E4]]]]]] [K [_ C]]].
    split; [exists ff, af; rewrite G in E3; inversion E3; subst; auto|]. split; [exact K|]. split; [|exact C].
    rewrite <- G. unfold emi2conc in H. rewrite R in H. destruct (Z.ltb_spec y (emstart p)); [|lia].
    destruct (co2_year S Fb co2 emis cc y fb st) as [[cc1 s1]|] eqn:EC; cbn [rbind fst snd] in H; [|discriminate].
    destruct (fill_one_row conc_in y ["CO2"] s1) as [s2|] eqn:EF; cbn [rbind] in H; [|discriminate]. inversion H; subst.
    destruct (co2_year_spec _ _ _ _ _ _ _ _ _ _ EC) as [ff5 [af5 [g5 [_ [_ [_ [_ C5]]]]]]]. destruct (conc_set_rest _ _ _ _ _ C5) as [G1 [_ K1]].
    unfold fill_one_row in EF. apply fill_fold in EF; [|rewrite K1; exact W]. destruct EF as [G2 _]. congruence.
  - destruct (c39_after _ _ _ _ _ _ _ _ _ _ _ _ _ _ W R L H) as [D [K [_ C]]].
    specialize (D IC g G U). split; [exact D|]. split; [exact K|]. split; [|exact C]. rewrite <- G.
    unfold emi2conc in H. rewrite R in H. destruct (Z.ltb_spec y (emstart p)); [lia|]. rewrite (turns_gas _ _ _ _ _ _ _ H). reflexivity.
Qed.
End CO2.

Section Trace.
Context {A : Type} {N : Num A}.
Variables (cp : cc_pam A) (sc : scenario A) (c : inst A).
Notation p := (c_p sc).
Notation HT := (htrace c (h_emi2conc cp sc) (h_conc2forc sc)).

Lemma trace_co2 n h l h' g : HT n h l h' -> d_start c = nystart p -> conc_run p = false -> wf (s_conc (snd h)) -> In "CO2" (dkeys (s_conc (snd h))) ->
  dget (s_gas (snd h)) "CO2" = Some g -> g_unit g <> "-" ->
  exists ins, List.length ins = List.length l /\
    (forall k x, nth_error l k = Some x -> exists ff af, fr_get (c_emis sc) "CO2_FF" (nystart p + Z.of_nat (n + k)) = Ok ff /\
       fr_get (c_emis sc) "CO2_AFOLU" (nystart p + Z.of_nat (n + k)) = Ok af /\
       nth_error ins k = Some (nadd (nadd ff af) (g_nat g), dtemp_of (fb_of x))) /\
    fst h' = fst (cc_run cp (fst h) n ins) /\ List.length (snd (cc_run cp (fst h) n ins)) = List.length l /\
    (forall k v, nth_error (snd (cc_run cp (fst h) n ins)) k = Some v -> conc_get (snd h') "CO2" (nystart p + Z.of_nat (n + k)) = Ok v) /\
    (forall y, (y < nystart p + Z.of_nat n)%Z -> conc_get (snd h') "CO2" y = conc_get (snd h) "CO2" y) /\
    dkeys (s_conc (snd h')) = dkeys (s_conc (snd h)) /\ dkeys (s_gas (snd h')) = dkeys (s_gas (snd h)).
Proof.
  intros T DS CR. induction T as [n h|n h fb luc sun q h1 h2 l h3 E1 _ _ E2 T IH]; intros W IC G U.
  - exists []. cbn [cc_run fst snd List.length]. split; [reflexivity|]. split; [intros [|k] x X; discriminate X|]. split; [reflexivity|]. split; [reflexivity|].
    split; [intros [|k] x X; discriminate X|]. split; [reflexivity|]. split; reflexivity.
  - rewrite DS in *. destruct h as [cc st], h1 as [cc1 st1], h2 as [cc2 st2]. unfold h_emi2conc in E1. cbn [fst snd] in *.
    destruct (e2c_co2 _ _ _ _ _ _ _ _ _ _ _ _ _ _ g W CR IC G U E1) as [[ff [af [F1 [F2 [F3 F4]]]]] [K1 [G1 C1]]].
    unfold h_conc2forc in E2. cbn [fst snd] in E2. destruct (conc2forc _ _ _ _ _ _ _ _ st1) as [[q' st2']|] eqn:E3; cbn [rbind fst snd] in E2; [|discriminate].
    inversion E2; subst cc2 st2' q'. clear E2. destruct (sg_conc2forc _ _ _ _ _ _ _ _ _ _ _ E3) as [G2 [K2 C2]].
    assert (W2 : wf (s_conc st2)).
    { unfold wf in *. change (map fst (s_conc st2)) with (dkeys (s_conc st2)). rewrite K2, K1. exact W. }
    destruct (emi2conc_keeps _ _ _ _ _ _ _ _ _ _ _ _ _ _ E1) as [_ KG].
    destruct IH as [ins [L [I [F [LL [V [B [K KG2]]]]]]]]; [exact W2|rewrite K2, K1; exact IC|rewrite G2; exact G1|exact U|].
    unfold h_co2 in F3, F4. replace (Z.to_nat (nystart p + Z.of_nat n - nystart p)) with n in F3, F4 by lia.
    destruct (co2em2conc cp cc n (nadd (nadd ff af) (g_nat g)) (dtemp_of fb)) as [hx cx] eqn:ES. cbn [fst snd] in F3, F4. subst hx.
    exists ((nadd (nadd ff af) (g_nat g), dtemp_of fb) :: ins). cbn [cc_run]. rewrite ES.
    destruct (cc_run cp cc1 (Datatypes.S n) ins) as [hr cs] eqn:ER. cbn [fst snd List.length] in *.
    split; [lia|]. split; [|split; [exact F|split; [lia|split; [|split]]]].
    + intros [|k] x X; cbn [nth_error] in X |- *.
      * inversion X; subst x. rewrite Nat.add_0_r. exists ff, af. auto.
      * destruct (I k x X) as [ff' [af' [Y1 [Y2 Y3]]]]. rewrite <- plus_n_Sm. exists ff', af'. auto.
    + intros [|k] v X; cbn [nth_error] in X.
      * inversion X; subst v. rewrite Nat.add_0_r. rewrite B by lia. rewrite C2 by discriminate. exact F4.
      * rewrite <- plus_n_Sm. apply V. exact X.
    + intros y Y. rewrite B by lia. rewrite C2 by discriminate. apply C1. lia.
    + split; congruence.
Qed.
End Trace.

Section Run.
Context {A : Type} {N : Num A} {T : Type}.
Variables (nan : A) (cp : cc_pam A) (sc : scenario A) (th : thermal A T) (c : inst A) (gt : dict (gas A)) (t0 : T) (cc0 : cc_state A).
Notation p := (c_p sc).
Notation RUN := (coupled_run nan cp sc th c gt t0 cc0).

Lemma reset_conc_keys k : In k (dkeys (s_conc (reset_arrays p gt (c_erf sc)))) -> In k (dkeys gt) /\ dmem (fr_cols (c_erf sc)) k = false.
Proof.
  unfold reset_arrays, gases_spicy. cbn [s_conc]. match goal with |- context [dkeys (map ?f ?l)] => change (dkeys (map f l)) with (map fst (map f l)) end. rewrite map_map. cbn [fst]. rewrite map_id. intros I.
  apply filter_In in I. destruct I as [I _]. apply filter_In in I. destruct I as [I _]. apply filter_In in I. destruct I as [I M].
  split; [exact I|]. destruct (dmem _ k); [discriminate M|reflexivity].
Qed.
Lemma reset_conc_co2 g : dget gt "CO2" = Some g -> g_unit g <> "-" -> dmem (fr_cols (c_erf sc)) "CO2" = false ->
  In "CO2" (dkeys (s_conc (reset_arrays p gt (c_erf sc)))).
Proof.
  intros G U M. unfold reset_arrays, gases_spicy. cbn [s_conc]. match goal with |- context [dkeys (map ?f ?l)] => change (dkeys (map f l)) with (map fst (map f l)) end. rewrite map_map. cbn [fst]. rewrite map_id.
  apply filter_In. split.
  - apply filter_In. split; [|reflexivity]. apply filter_In. split; [apply dget_In_keys, dmem_true; eauto|rewrite M; reflexivity].
  - rewrite G. destruct (String.eqb_spec (g_unit g) "-"); [contradiction|reflexivity].
Qed.
Lemma reset_conc_wf : wf gt -> wf (s_conc (reset_arrays p gt (c_erf sc))).
Proof.
  intros W. unfold wf, reset_arrays, gases_spicy. cbn [s_conc].
  match goal with |- context [dkeys (map ?f ?l)] => change (dkeys (map f l)) with (map fst (map f l)) end. rewrite map_map. cbn [fst]. rewrite map_id. repeat apply NoDup_filter. exact W.
Qed.

Lemma run_parts carbon r out : d_rf c = None -> RUN true carbon r = out -> o_exn out = None ->
  exists s series fs, run_years T th c (handler A) (h_emi2conc cp sc) (h_conc2forc sc) h_feedbacks t0 (cc0, reset_arrays p gt (c_erf sc)) r = (s, None) /\
    h_add_results nan cp sc (l_h s) carbon series = Ok fs /\ o_handler out = l_h s /\
    o_results out = dupdate (l_res s) (map (fun kv => (fst kv, Fr (snd kv))) fs).
Proof.
  intros RF E X. unfold coupled_run, run in E. destruct (run_years _ _ _ _ _ _ _ _ _ _) as [s [e|]] eqn:RY; [subst out; discriminate X|].
  rewrite RF in E. destruct (feedback_series _ _ _ _) as [series|e]; [|subst out; discriminate X].
  destruct (h_add_results nan cp sc (l_h s) carbon series) as [fs|e] eqn:AR; [|subst out; discriminate X].
  exists s, series, fs. subst out. cbn. auto.
Qed.

Lemma c79 carbon r out g : d_rf c = None -> conc_run p = false -> d_start c = nystart p -> d_end c = nyend p ->
  distinct_outputs (t_names th) -> dget (t_names th) "dT_glob" = Some "dtemp" ->
  wf gt -> dget gt "CO2" = Some g -> g_unit g <> "-" -> dmem (fr_cols (c_erf sc)) "CO2" = false ->
  wf (fr_cols (c_pc sc)) -> (forall k, In k (dkeys (fr_cols (c_pc sc))) -> dmem (fr_cols (c_erf sc)) k = true) -> (exists k, In k (dkeys (fr_cols (c_pc sc)))) ->
  ~ In "Year" (dkeys gt ++ dkeys (fr_cols (c_pc sc))) ->
  RUN true carbon r = out -> o_exn out = None ->
  exists temp ins, in_array (o_results out) "dT_glob" temp /\ List.length temp = d_years c /\
    co2_drivers (c_emis sc) g temp (nystart p) (d_years c) ins /\
    in_frame (o_results out) "concentrations" "CO2" (snd (cc_run cp cc0 0 ins)) /\
    fst (o_handler out) = fst (cc_run cp cc0 0 ins).
Proof.
  intros RF CR DS DE DO DN W G U M WP PE NE NY E X.
  destruct (run_parts carbon r out RF E X) as [s [series [fs [RY [AR [OH OR]]]]]].
  destruct (run_trace th c _ _ t0 _ r s DO RF DN RY) as [l [temp [HT [LL [DT [LT [TF FB]]]]]]].
  assert (IC := reset_conc_co2 g G U M). assert (WC := reset_conc_wf W).
  destruct (trace_co2 cp sc c 0 (cc0, reset_arrays p gt (c_erf sc)) l (l_h s) g HT DS CR WC IC G U) as [ins [LI [II [HF [LC [CV [_ [KC KGS]]]]]]]].
  cbn [fst snd] in *.
  (* the frames *)
  unfold h_add_results in AR.
  destruct (forcing_frame p (snd (l_h s)) (c_erf sc)) as [forc|]; cbn [rbind] in AR; [|discriminate].
  destruct (emission_frame p (c_emis sc)) as [em|]; cbn [rbind] in AR; [|discriminate].
  destruct (concentration_frame nan p (snd (l_h s)) (c_pc sc)) as [cf|] eqn:CF; cbn [rbind] in AR; [|discriminate]. cbv zeta in AR.
  assert (FS : exists rest, fs = [("emissions", em); ("concentrations", cf); ("forcing", forc)] ++ rest /\ (rest = [] \/ exists v, rest = [("carbon cycle", v)])).
  { destruct carbon; [|exists []; inversion AR; split; [reflexivity|left; reflexivity]].
    destruct (carbon_data nan cp p (c_emis sc) (fst (l_h s)) (snd (l_h s)) series) as [cd|]; cbn [rbind] in AR; [|discriminate]. inversion AR.
    exists [("carbon cycle", snd cd)]. split; [reflexivity|]. right; eauto. }
  destruct FS as [rest [FS RS]].
  assert (WF : wf (map (fun kv : string * frame A => (fst kv, Fr (snd kv))) fs)).
  { rewrite FS. destruct RS as [->|[v ->]]; apply nodupb_NoDup; reflexivity. }
  assert (GC : dget (o_results out) "concentrations" = Some (Fr cf)).
  { rewrite OR, dget_dupdate by exact WF. rewrite FS. reflexivity. }
  assert (GT : dget (o_results out) "dT_glob" = Some (Arr temp)).
  { rewrite OR, dget_dupdate by exact WF. rewrite FS. destruct RS as [->|[v ->]]; cbn; exact DT. }
  assert (YL : List.length (years_of p) = d_years c).
  { unfold years_of, d_years. rewrite P_Input2.zrange_length, DS, DE. reflexivity. }
  destruct (concentration_spec nan p (snd (l_h s)) (c_pc sc) cf) as [_ [_ [_ [_ [CS _]]]]].
  { rewrite KC. constructor.
    - rewrite in_app_iff. intros [I|I]; [apply reset_conc_keys in I; apply NY, in_or_app; left; tauto|apply NY, in_or_app; right; exact I].
    - assert (Q : forall a b : list string, NoDup a -> NoDup b -> (forall k, In k a -> ~ In k b) -> NoDup (a ++ b)).
      { induction a as [|k a IH]; intros b Na Nb D; [exact Nb|]. inversion Na; subst. cbn [app]. constructor.
        - rewrite in_app_iff. intros [I|I]; [contradiction|]. apply (D k); [left; reflexivity|exact I].
        - apply IH; try assumption. intros k' I. apply D. right; exact I. }
      apply Q; [exact WC|exact WP|]. intros k I I'. apply reset_conc_keys in I. destruct I as [_ I]. rewrite (PE k I') in I. discriminate I. }
  { rewrite KGS. intros I. apply NY, in_or_app. left; exact I. }
  { exact NE. }
  { exact CF. }
  exists temp, ins. split; [exact GT|]. split; [exact LT|]. split; [|split; [|rewrite OH; exact HF]].
  - split; [congruence|]. intros k Lk. assert (Lk' : (k < List.length l)%nat) by lia. apply nth_error_Some in Lk'.
    destruct (nth_error l k) as [x|] eqn:NX; [|congruence]. destruct (II k x NX) as [ff [af [I1 [I2 I3]]]]. cbn [plus] in I1, I2.
    exists ff, af. split; [exact I1|]. split; [exact I2|]. rewrite I3. rewrite (FB k x NX). do 2 f_equal. destruct k as [|j]; [reflexivity|].
    cbn [last_year]. assert (Lj : (j < List.length temp)%nat) by lia. apply nth_error_Some in Lj.
    destruct (nth_error temp j) as [d|] eqn:ND; [|congruence]. cbn [option_map dtemp_of dget String.eqb Ascii.eqb Bool.eqb]. symmetry. apply nth_error_nth. exact ND.
  - exists cf. split; [exact GC|]. 
    assert (ID : In "CO2" (dkeys (s_conc (snd (l_h s))))) by (rewrite KC; exact IC). apply dget_In_keys, dmem_true in ID. destruct ID as [d D].
    rewrite (CS "CO2" d); [|rewrite KGS; apply dget_In_keys, dmem_true; eauto|exact D]. f_equal. unfold conc_series. apply nth_error_eq. intros n. rewrite nth_error_map.
    destruct (Nat.ltb_spec n (d_years c)) as [Ln|Ln].
    + unfold years_of. rewrite P_Gas2.zrange_nth; [|unfold years_of in YL; rewrite P_Input2.zrange_length in YL; lia]. cbn [option_map].
      assert (Lc : (n < List.length (snd (cc_run cp cc0 0 ins)))%nat) by lia. apply nth_error_Some in Lc.
      destruct (nth_error (snd (cc_run cp cc0 0 ins)) n) as [v|] eqn:NV; [|congruence]. specialize (CV n v NV). cbn [plus] in CV.
      unfold conc_get in CV. rewrite D in CV. cbn [key rbind] in CV. destruct (yget d _) as [v'|]; cbn [key] in CV; [|discriminate]. congruence.
    + rewrite (proj2 (nth_error_None _ _)) by lia. cbn [option_map]. symmetry. apply nth_error_None. lia.
Qed.
End Run.
