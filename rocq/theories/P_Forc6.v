(** * P_Forc6: regional aerosols and the handler's parameters (C50) *)
From Coq Require Import Reals Qreals Lra.
From Verif Require Import PyBase PyBaseFacts Num M_Pams Spec_Pams P_PamsMain M_Gas M_Forcing Spec_Gas Spec_Forc P_Forc P_Forc2 P_Forc5.
Open Scope R_scope.

Lemma c50_no_double env init hist pm (p : hpam R) d emis st y t q g v :
  opt_wf init -> Forall opt_wf hist -> opt_wf pm ->
  In (t, q) [("SO2", "qdirso2"); ("BC", "qbc"); ("OC", "qoc")] ->
  existsb (String.prefix (t ++ "_")%string) (env_gases env) = true ->
  handler_reruns env (handler_init env init) (hist ++ [pm]) = Ok d -> reads d p ->
  dget (s_gas st) t = Some g -> aerosol_forcing p emis st y t = Ok v ->
  (g_alpha g = 0 -> v = 0) /\ (g_alpha g <> 0 -> exists e, em_change emis t (nystart p) y e /\ v = e * g_alpha g).
Proof.
  intros W1 W2 W3 Hin Hreg Hd Hr Hg Hv. split; intros HA; [|eapply c50_efficiency; eauto].
  destruct (c50 env init hist pm t q W1 W2 W3 Hin) as [_ [d' [Hd' Hq]]]. rewrite Hd in Hd'. inversion Hd'; subst d'. clear Hd'.
  rewrite Hreg in Hq.
  assert (Z : forall x, In (q, x) [("qdirso2", qdirso2 p); ("qbc", qbc p); ("qoc", qoc p); ("qindso2", qindso2 p)] -> x = 0).
  { intros x Hx. rewrite (Hr q x Hx _ _ Hq eq_refl). unfold Q2R. cbn. lra. }
  destruct Hin as [E|[E|[E|[]]]]; inversion E; subst.
  - destruct (c50_factor _ _ _ _ _ _ _ Hv Hg HA (qdirso2 p) ltac:(left; reflexivity)) as [e [_ ->]].
    rewrite (Z (qdirso2 p)) by (cbn; auto). ring.
  - destruct (c50_factor _ _ _ _ _ _ _ Hv Hg HA (qbc p) ltac:(right; left; reflexivity)) as [e [_ ->]].
    rewrite (Z (qbc p)) by (cbn; auto). ring.
  - destruct (c50_factor _ _ _ _ _ _ _ Hv Hg HA (qoc p) ltac:(right; right; left; reflexivity)) as [e [_ ->]].
    rewrite (Z (qoc p)) by (cbn; auto). ring.
Qed.

(** *** The three main gases *)
Lemma rf_co2_etminan c0 c n0 n : rf_co2 c0 c n0 n = etminan_co2 c0 c n0 n.
Proof. unfold rf_co2, etminan_co2. rnum. rdec. f_equal. cbn [npown]. rnum. field. Qed.
Lemma rf_n2o_etminan c0 c n0 n m0 m : rf_n2o c0 c n0 n m0 m = etminan_n2o c0 c n0 n m0 m.
Proof. unfold rf_n2o, etminan_n2o. rnum. rdec. f_equal. field. Qed.
Lemma rf_ch4_etminan n0 n m0 m : rf_ch4 n0 n m0 m = etminan_ch4 n0 n m0 m.
Proof. unfold rf_ch4, etminan_ch4. rnum. rdec. f_equal. field. Qed.

Lemma is_aerosol_spec k : is_aerosol k = true <-> aerosol_like k.
Proof.
  unfold is_aerosol, aerosol_like. rewrite orb_true_iff, smem_In.
  assert (P : forall a b, String.prefix (String a (String b "")) k = String.eqb (substring 0 2 k) (String a (String b ""))).
  { intros a b. destruct k as [|x [|y k]]; cbn; [reflexivity| |].
    - destruct (Ascii.ascii_dec a x), (Ascii.eqb_spec x a); cbn; congruence.
    - replace (substring 0 0 k) with "" by (destruct k; reflexivity).
      destruct (Ascii.ascii_dec a x), (Ascii.eqb_spec x a); cbn; try congruence.
      destruct (Ascii.ascii_dec b y), (Ascii.eqb_spec y b); cbn; try congruence. destruct k; reflexivity. }
  split; (intros [H|H]; [left; exact H|right]).
  - apply smem_In in H. exists (substring 0 2 k). split; auto.
    destruct H as [E|[E|[E|[E|[]]]]]; rewrite <- E, P, <- E; reflexivity.
  - apply smem_In. destruct H as [s [Hs Hp]].
    destruct Hs as [E|[E|[E|[E|[]]]]]; subst s; rewrite P in Hp; apply String.eqb_eq in Hp; rewrite Hp; cbn; auto.
Qed.

Lemma ref_factor (p : hpam R) k : dget (ref_emission_species p) k = factor_of p k.
Proof. reflexivity. Qed.

Lemma component_meets (p : hpam R) conc_in emis y luc k s q s' :
  component p conc_in emis y luc k s = Ok (q, s') -> 
  component_value p emis (s_gas s) (fun t y' c => conc_get s t y' = Ok c) (forc_at (s_forc s) "CH4" (forc_ix p y)) luc y k q.
Proof.
  intros H. unfold component in H.
  destruct (String.eqb_spec k "LANDUSE") as [->|Hl].
  { inversion H; subst. split; [auto|]. split.
    - intros [[C|[C|[C|[]]]]|[s0 [Hs Hp]]]; try discriminate. destruct Hs as [<-|[<-|[<-|[<-|[]]]]]; discriminate.
    - split; [congruence|]. intros g C. discriminate. }
  split; [congruence|].
  destruct (is_aerosol k) eqn:EA.
  { destruct (aerosol_forcing p emis s y k) as [v|] eqn:EF; cbn [rbind] in H; [|discriminate]. inversion H; subst.
    apply is_aerosol_spec in EA. split.
    - intros _. unfold aerosol_forcing, key in EF. destruct (dget (s_gas s') k) as [g|] eqn:EG; cbn [rbind] in EF; [|discriminate].
      exists g. split; auto. split; intros HA.
      + eapply c50_efficiency; [|exact EG|exact HA]. unfold aerosol_forcing, key. rewrite EG. cbn [rbind]. exact EF.
      + assert (EB : neqb (g_alpha g) (nofZ 0) = true) by (rnum; rewrite HA; destruct (Req_EM_T 0 0); congruence).
        rewrite EB in EF. cbn [negb] in EF. rewrite ref_factor in EF. destruct (factor_of p k) as [[e f]|].
        * split; [discriminate|]. intros e' f' E. inversion E; subst.
          destruct (fr_get emis e' y) as [x|] eqn:E1; cbn [rbind] in EF; [|discriminate].
          destruct (fr_get emis e' (nystart p)) as [x0|] eqn:E2; cbn [rbind] in EF; [|discriminate].
          inversion EF. exists (x - x0). split; [exists x, x0; auto|]. rnum. reflexivity.
        * split; [|discriminate]. intros _. inversion EF. rnum. reflexivity.
    - split; [intros _ C; contradiction|]. intros g -> _ _. exfalso.
      assert (is_aerosol "STRAT_H2O" = true) by (apply is_aerosol_spec; auto). discriminate. }
  assert (NA : ~ aerosol_like k) by (intros C; apply is_aerosol_spec in C; congruence).
  split; [intros C; contradiction|].
  destruct (dget (s_gas s) k) as [g|] eqn:EG.
  - destruct (Req_EM_T (g_alpha g) 0) as [HA|HA].
    + assert (EB : neqb (g_alpha g) (nofZ 0) = true) by (rnum; rewrite HA; destruct (Req_EM_T 0 0); congruence).
      rewrite EB in H. cbn [negb] in H. split; [intros _ _ g' E; inversion E; subst; congruence|].
      intros g' -> E _. inversion E; subst g'. cbn [String.eqb Ascii.eqb Bool.eqb andb] in H.
      destruct (forc_get p s "CH4" y) as [m|] eqn:EM; cbn [rbind] in H; [|discriminate].
      destruct (forc_get_at _ _ _ _ _ EM) as [_ Em]. unfold sarf, key in H. rewrite EG in H. cbn [rbind] in H. subst m. injection H as HQ HS. rewrite <- HQ. rnum. reflexivity.
    + assert (EB : neqb (g_alpha g) (nofZ 0) = false) by (rnum; destruct (Req_EM_T (g_alpha g) 0); [contradiction|reflexivity]).
      rewrite EB in H. cbn [negb key rbind] in H. split.
      * intros _ _ g' E _. inversion E; subst g'.
        destruct (conc_get s k y) as [c|] eqn:E1; cbn [rbind] in H; [|discriminate].
        destruct (conc_get s k (nystart p)) as [c0|] eqn:E2; cbn [rbind] in H; [|discriminate].
        exists c, c0. split; auto. split; auto. inversion H. rnum. reflexivity.
      * intros g' _ E C. inversion E; subst. contradiction.
  - split; intros; discriminate.
Qed.

(** The final value of every component, with the perturbations of the year. *)
Lemma c78 (p : hpam R) conc_in emis erf pert y luc sun st st' tot nh sh w :
  conc2forc p conc_in emis erf pert y luc sun st = Ok ((tot, nh, sh, w), st') -> wf (s_forc st) ->
  let f' := s_forc st' in let i := forc_ix p y in
  exists c0 c n0 n m0 m gc gn gm,
    conc_get st "CO2" (nystart p) = Ok c0 /\ conc_get st "CO2" y = Ok c /\ conc_get st "N2O" (nystart p) = Ok n0 /\
    conc_get st "N2O" y = Ok n /\ conc_get st "CH4" (nystart p) = Ok m0 /\ conc_get st "CH4" y = Ok m /\
    dget (s_gas st) "CO2" = Some gc /\ dget (s_gas st) "N2O" = Some gn /\ dget (s_gas st) "CH4" = Some gm /\
    forc_at f' "CO2" i = g_sarf gc * etminan_co2 c0 c n0 n + pert_sum (pert_rows pert) y "CO2" /\
    forc_at f' "N2O" i = g_sarf gn * etminan_n2o c0 c n0 n m0 m + pert_sum (pert_rows pert) y "N2O" /\
    forc_at f' "CH4" i = g_sarf gm * etminan_ch4 n0 n m0 m + pert_sum (pert_rows pert) y "CH4" /\
    forall k, In k (components f') -> ~ In k ["CO2"; "N2O"; "CH4"] -> k <> "TROP_O3" ->
      component_value p emis (s_gas st) (fun t y' c => conc_get st t y' = Ok c) (g_sarf gm * etminan_ch4 n0 n m0 m) luc y k
        (forc_at f' k i - pert_sum (pert_rows pert) y k).
Proof.
  intros HR HW f' i.
  destruct (stages_exist _ _ _ _ _ _ _ _ _ _ _ _ _ _ HR HW) as [t3 [st3 [nh3 [sh3 [a1 [pre [a2 [s [S3 SL SF SP SD SR SN SS SE SA SW]]]]]]]]].
  pose proof (three_spec _ _ _ _ _ _ _ S3) as X. cbv zeta in X.
  destruct X as [G3 [C3 [L3 [_ [_ [I3 [_ [_ [_ [c0n [cn [c0c [cc [c0m [cm [gc [gn [gm [A1 [A2 [A3 [A4 [A5 [A6 [B1 [B2 [B3 [F1 [F2 F3]]]]]]]]]]]]]]]]]]]]]]]]]]]]].
  destruct SL as [L1 G1 _ _ O1 _ _ _ _ _ Z1]. destruct SR as [L2 _ _ _ P2 _ _ _ _]. cbn [r_st] in *.
  destruct (forc_set_at _ _ _ _ _ _ SE) as [_ [_ [L4 [_ [_ [V4 _]]]]]].
  assert (K3 : dkeys (s_forc st3) = dkeys (s_forc st)) by apply L3.
  assert (K1 : dkeys (s_forc (r_st a1)) = dkeys (s_forc st)) by (rewrite <- K3; apply L1).
  assert (K2 : dkeys (s_forc (r_st a2)) = dkeys (s_forc st)) by (rewrite <- K1; apply L2).
  assert (K4 : dkeys f' = dkeys (s_forc st)) by (rewrite <- K2; apply L4).
  assert (FV : forall k, In k (dkeys (s_forc st)) -> k <> TOTAL -> forc_at f' k i = forc_at (s_forc (r_st a1)) k i + pert_sum (pert_rows pert) y k).
  { intros k Hk HT. unfold f'. rewrite V4. apply String.eqb_neq in HT. rewrite HT. cbn [andb]. apply P2. rewrite K1. exact Hk. }
  assert (FM : forall k, main3 k = true -> forc_at f' k i = forc_at (s_forc st3) k i + pert_sum (pert_rows pert) y k).
  { intros k Hk. rewrite FV; [| apply I3; auto | intros ->; discriminate]. f_equal. unfold forc_at. rewrite O1 by auto. reflexivity. }
  exists c0c, cc, c0n, cn, c0m, cm, gc, gn, gm. do 9 (split; [assumption|]).
  rewrite !FM by reflexivity. fold i in F1, F2, F3. rewrite F1, F2, F3, rf_co2_etminan, rf_n2o_etminan, rf_ch4_etminan.
  do 3 (split; [reflexivity|]).
  intros k Hk HM HO. unfold components in Hk. apply filter_In in Hk. destruct Hk as [Hk HT]. rewrite K4 in Hk.
  assert (HT' : k <> TOTAL) by (intros ->; discriminate). rewrite FV by auto.
  assert (EM : main3 k = false). { destruct (main3 k) eqn:E; auto. apply smem_In in E. exfalso. apply HM. cbn in *. tauto. }
  destruct (Z1 k Hk EM) as [_ [s0 [q [s1 [D1 [D2 [D3 [D4 [D5 D6]]]]]]]]].
  replace (forc_at (s_forc (r_st a1)) k i + pert_sum (pert_rows pert) y k - pert_sum (pert_rows pert) y k) with q by (fold i in D2; rewrite D2; ring).
  pose proof (component_meets _ _ _ _ _ _ _ _ _ D1) as [V1 [V2 [V3 V5]]]. rewrite D3, G3 in *.
  split; [exact V1|]. split; [exact V2|]. split.
  - intros Hl Ha g Hg HA. destruct (V3 Hl Ha g Hg HA) as [c [c0 [E1 [E2 E3]]]]. exists c, c0.
    rewrite D5 in E1, E2 by auto. assert (CG : forall t y', conc_get st3 t y' = conc_get st t y') by (intros; unfold conc_get; rewrite C3; reflexivity).
    rewrite CG in E1, E2. auto.
  - intros g H1 H2 H3. rewrite (V5 g H1 H2 H3). f_equal. f_equal. unfold forc_at. rewrite D4. fold (forc_at (s_forc st3) "CH4" (forc_ix p y)). fold i.
    rewrite F3, rf_ch4_etminan. reflexivity.
Qed.
