(** * P_Warm: two runs that differ in CO2 only, the handler (C109) *)
From Coq Require Import Reals Lra Lia.
From Verif Require Import PyBase PyBaseFacts Num M_Gas M_TwoLayer M_Forcing M_Carbon M_Driver M_Results M_BoxRun Spec_Coupled P_Climate.
Open Scope R_scope.

Definition other (k : string) : Prop := k <> "CO2".
Definition steady (k : string) : Prop := ~ In k ["CO2"; "N2O"; "Total_forcing"].
Definition not_co2_em (k : string) : Prop := ~ In k ["CO2_FF"; "CO2_AFOLU"].
Lemma steady_ch4 : steady "CH4". Proof. intros [H|[H|[H|[]]]]; discriminate H. Qed.

Lemma both_fold_in {B B' X} (E : B -> B' -> Prop) (f : result B -> X -> result B) (f' : result B' -> X -> result B') l :
  (forall a a' x, In x l -> both E a a' -> both E (f a x) (f' a' x)) -> forall a a', both E a a' -> both E (fold_left f l a) (fold_left f' l a').
Proof. induction l as [|x l IH]; intros H a a' R; [exact R|]. cbn [fold_left]. apply IH; [intros b b' z I; apply H; right; exact I|]. apply H; [left; reflexivity|exact R]. Qed.

Section Handler.
Variables (p : hpam R) (conc conc' emis emis' nat4 nat2 erf : frame R) (pert : option (ptable R)).
Hypothesis AC : agree_on (fun k _ => other k) conc conc'.
Hypothesis AE : agree_on (fun k _ => not_co2_em k) emis emis'.

(** the states of both handlers; no concentration or forcing is kept under the name of a CO2 emission *)
Record near (st st' : hst R) : Prop := {
  nr_gas : s_gas st = s_gas st'; nr_conc : alike other (s_conc st) (s_conc st'); nr_forc : alike steady (s_forc st) (s_forc st');
  nr_names : forall k, In k (dkeys (s_conc st) ++ dkeys (s_forc st)) -> not_co2_em k }.

Lemma dset_keys_same {V} (d : dict V) k v x : dget d k = Some v -> dkeys (dset d k x) = dkeys d.
Proof. intros H. rewrite dkeys_dset. unfold dmem. rewrite H. reflexivity. Qed.
Lemma n_conc_get st st' t y : near st st' -> other t -> conc_get st t y = conc_get st' t y.
Proof. intros H T. unfold conc_get. rewrite (alike_get _ _ _ t (nr_conc _ _ H) T). reflexivity. Qed.
Lemma n_conc_set st st' t y v v' : near st st' -> (other t -> v = v') -> both near (conc_set st t y v) (conc_set st' t y v').
Proof.
  intros [G H F P] Q. unfold conc_set. destruct (dget (s_conc st) t) as [d|] eqn:D; [|exact Logic.I]. destruct (dget (s_conc st') t) as [d'|] eqn:D'; cbn [key rbind]; [|exact Logic.I].
  constructor; [exact G| |exact F|].
  - cbn [s_conc set_conc]. apply alike_set; [exact H|]. intros T. rewrite (alike_get _ _ _ t H T) in D. rewrite D in D'. injection D' as ->. rewrite (Q T). reflexivity.
  - cbn [s_conc s_forc set_conc]. rewrite (dset_keys_same _ _ _ _ D). exact P.
Qed.
Lemma n_forc_get st st' t y : near st st' -> steady t -> forc_get p st t y = forc_get p st' t y.
Proof. intros H T. unfold forc_get. rewrite (alike_get _ _ _ t (nr_forc _ _ H) T). reflexivity. Qed.
Lemma n_forc_set st st' t y q q' : near st st' -> (steady t -> q = q') -> both near (forc_set p st t y q) (forc_set p st' t y q').
Proof.
  intros [G H F P] Q. unfold forc_set. destruct (dget (s_forc st) t) as [v|] eqn:D; [|exact Logic.I].
  destruct (dget (s_forc st') t) as [v'|] eqn:D'; cbn [key rbind]; [|destruct (Nat.ltb _ _); exact Logic.I].
  destruct (Nat.ltb _ (List.length v)); [|exact Logic.I]. destruct (Nat.ltb _ (List.length v')); [|exact Logic.I].
  constructor; [exact G|exact H| |].
  - cbn [s_forc set_forc]. apply alike_set; [exact F|]. intros T. rewrite (alike_get _ _ _ t F T) in D. rewrite D in D'. injection D' as ->. rewrite (Q T). reflexivity.
  - cbn [s_conc s_forc set_forc]. rewrite (dset_keys_same _ _ _ _ D). exact P.
Qed.
Lemma n_col t : dmem (fr_cols conc) t = dmem (fr_cols conc') t.
Proof.
  destruct AC as [K _]. apply eq_iff_eq_true. rewrite !dget_In_keys, K. reflexivity.
Qed.
Lemma n_fill y avoid st st' : near st st' -> both near (fill_one_row conc y avoid st) (fill_one_row conc' y avoid st').
Proof.
  intros H. unfold fill_one_row. rewrite (alike_keys _ _ _ (nr_conc _ _ H)). apply both_fold; [|exact H].
  intros a a' t R0. eapply both_bind; [exact R0|]. intros x x' B. destruct (smem t avoid); [exact B|]. rewrite <- n_col. destruct (dmem (fr_cols conc) t); [|apply n_conc_set; auto].
  apply (both_bind (fun v v' => other t -> v = v')).
  - destruct (fr_get conc t y) as [v|] eqn:V; [|exact Logic.I]. destruct (fr_get conc' t y) as [v'|] eqn:V'; [|exact Logic.I]. cbn. intros T. rewrite (proj2 AC t y T), V' in V. congruence.
  - intros v v' Q. apply n_conc_set; assumption.
Qed.

Section Carbon.
Variables (S S' Fb Fb' : Type) (co2 : S -> Z -> R -> Fb -> S * R) (co2' : S' -> Z -> R -> Fb' -> S' * R).
Definition np (a : S * hst R) (b : S' * hst R) : Prop := near (snd a) (snd b).
Lemma n_co2 y fb fb' cc cc' st st' : near st st' -> both np (co2_year S Fb co2 emis cc y fb st) (co2_year S' Fb' co2' emis' cc' y fb' st').
Proof.
  intros H. unfold co2_year. apply both_skip. intros em em'. cbv zeta. eapply both_bind; [apply n_conc_set; [exact H|intros T; destruct (T eq_refl)]|].
  intros x x' B. exact B.
Qed.
Lemma n_lifetime g q prev y : methane_lifetime p emis g q prev y = methane_lifetime p emis' g q prev y.
Proof.
  unfold methane_lifetime. assert (Q : forall k z, In k ["NOx"; "CO"; "NMVOC"] -> fr_get emis k z = fr_get emis' k z).
  { intros k z I. apply (proj2 AE). intros J. destruct I as [<-|[<-|[<-|[]]]], J as [J|[J|[]]]; discriminate J. }
  rewrite !(Q "NOx"), !(Q "CO"), !(Q "NMVOC") by (cbn; tauto). reflexivity.
Qed.
Lemma n_tracer y fb fb' a a' t : not_co2_em t -> both np a a' ->
  both np (emi2conc_tracer S Fb co2 p conc emis nat4 nat2 y fb a t) (emi2conc_tracer S' Fb' co2' p conc' emis' nat4 nat2 y fb' a' t).
Proof.
  intros NT R0. unfold emi2conc_tracer. eapply both_bind; [exact R0|]. intros [cc st] [cc' st'] B. unfold np in B; cbn [snd] in B. assert (G := nr_gas _ _ B).
  rewrite <- G. eapply both_bind; [apply both_same|]. intros g g' <-. destruct (String.eqb (g_unit g) "-"); [exact B|].
  destruct (String.eqb t "CO2") eqn:T; [apply n_co2; assumption|]. apply String.eqb_neq in T.
  eapply both_bind; [destruct (y >? nystart p)%Z; [apply both_eq, n_conc_get; assumption|apply both_eq, (proj2 AC); exact T]|]. intros prev prev' <-. cbv zeta.
  eapply (both_bind eq).
  { destruct (String.eqb t "CH4"); [|apply both_same]. destruct (fr_get nat4 "CH4" y); [|exact Logic.I]. cbn [rbind]. rewrite n_lifetime. apply both_same. }
  intros [g1 q1] x <-. eapply both_bind; [apply both_eq, (proj2 AE); exact NT|]. intros e e' <-.
  eapply both_bind; [apply n_conc_set; [|reflexivity]|].
  - destruct B as [B1 B2 B3 B4]. constructor; [cbn; congruence|exact B2|exact B3|exact B4].
  - intros u u' W. exact W.
Qed.
Lemma n_emi2conc y fb fb' cc cc' st st' : near st st' ->
  both np (emi2conc S Fb co2 p conc emis nat4 nat2 y fb cc st) (emi2conc S' Fb' co2' p conc' emis' nat4 nat2 y fb' cc' st').
Proof.
  intros H. unfold emi2conc. destruct (conc_run p).
  { eapply both_bind; [apply n_fill; exact H|]. intros x x' B. exact B. }
  destruct (y <? emstart p)%Z.
  { eapply both_bind; [apply n_co2; assumption|]. intros x x' B. eapply both_bind; [apply n_fill; exact B|]. intros z z' W. exact W. }
  rewrite <- (alike_keys _ _ _ (nr_conc _ _ H)). apply both_fold_in; [intros a a' t I; apply n_tracer, (nr_names _ _ H), in_or_app; left; exact I|]. unfold np; cbn [both snd].
  destruct H as [G C F P]. constructor; [exact G| |exact F|].
  - unfold add_row_of_zeros; cbn [s_conc set_conc]. clear F G P. induction C as [|[a v] [b w] d d' [E Q] R0 IH]; [constructor|]. cbn in *. subst b.
    constructor; [split; [reflexivity|]|exact IH]. cbn. intros T. rewrite (Q T). reflexivity.
  - unfold add_row_of_zeros; cbn [s_conc s_forc set_conc]. assert (K : dkeys (map (fun kv : string * list (Z * R) => (fst kv, yset (snd kv) y (nofZ 0))) (s_conc st)) = dkeys (s_conc st)).
    { unfold dkeys. rewrite map_map. reflexivity. } rewrite K. exact P.
Qed.
End Carbon.

(** ** Forcing *)
Definition n3 (D : R) (a b : R * R * R * hst R) : Prop := near (snd a) (snd b) /\ (fst (fst (fst b)) - fst (fst (fst a)) = D /\ snd (fst (fst b)) - snd (fst (fst a)) = D /\ snd (fst b) - snd (fst a) = D).
Lemma hemi_shift t (q nh sh nh' sh' : R) : fst (hemispheric t q nh' sh') - fst (hemispheric t q nh sh) = nh' - nh /\ snd (hemispheric t q nh' sh') - snd (hemispheric t q nh sh) = sh' - sh.
Proof. unfold hemispheric. destruct (smem t aerosol_split); [|destruct (String.eqb t "TROP_O3"); [|destruct (String.eqb t "LANDUSE")]]; cbn [fst snd]; rnum; lra. Qed.
(** what CO2 changes in the total of year [y] *)
Definition by_co2 (y : Z) (st st' : hst R) (D : R) : Prop :=
  exists c0 c c0' c' n0 n m0 m gc gn, conc_get st "CO2" (nystart p) = Ok c0 /\ conc_get st "CO2" y = Ok c /\
    conc_get st' "CO2" (nystart p) = Ok c0' /\ conc_get st' "CO2" y = Ok c' /\
    conc_get st "N2O" (nystart p) = Ok n0 /\ conc_get st "N2O" y = Ok n /\ conc_get st "CH4" (nystart p) = Ok m0 /\ conc_get st "CH4" y = Ok m /\
    dget (s_gas st) "CO2" = Some gc /\ dget (s_gas st) "N2O" = Some gn /\
    D = g_sarf gc * (rf_co2 c0' c' n0 n - rf_co2 c0 c n0 n) + g_sarf gn * (rf_n2o c0' c' n0 n m0 m - rf_n2o c0 c n0 n m0 m).
Lemma oth t : String.eqb t "CO2" = false -> other t. Proof. intros H ->. discriminate H. Qed.
Lemma n_three y st st' : near st st' -> both (fun a b => exists D, by_co2 y st st' D /\ n3 D a b) (forc_three_main p y st) (forc_three_main p y st').
Proof.
  intros H. assert (G := nr_gas _ _ H). unfold forc_three_main.
  rewrite <- !(n_conc_get st st' "N2O" _ H (oth "N2O" eq_refl)), <- !(n_conc_get st st' "CH4" _ H (oth "CH4" eq_refl)). unfold sarf. rewrite <- G.
  destruct (conc_get st "N2O" (nystart p)) as [n0|] eqn:E1; [|exact Logic.I]. destruct (conc_get st "N2O" y) as [n|] eqn:E2; [|exact Logic.I].
  destruct (conc_get st "CO2" (nystart p)) as [c0|] eqn:E3; [|exact Logic.I]. destruct (conc_get st "CO2" y) as [c|] eqn:E4; [|exact Logic.I].
  destruct (conc_get st "CH4" (nystart p)) as [m0|] eqn:E5; [|exact Logic.I]. destruct (conc_get st "CH4" y) as [m|] eqn:E6; [|exact Logic.I].
  destruct (dget (s_gas st) "CO2") as [gc|] eqn:E7; [|exact Logic.I]. destruct (dget (s_gas st) "N2O") as [gn|] eqn:E8; [|exact Logic.I].
  destruct (dget (s_gas st) "CH4") as [gm|] eqn:E9; [|exact Logic.I].
  destruct (conc_get st' "CO2" (nystart p)) as [c0'|] eqn:E3'; [|cbn [rbind key]; match goal with |- both _ ?a _ => destruct a; exact Logic.I end].
  destruct (conc_get st' "CO2" y) as [c'|] eqn:E4'; [|cbn [rbind key]; match goal with |- both _ ?a _ => destruct a; exact Logic.I end].
  cbn [rbind key]. cbv zeta.
  assert (BY : by_co2 y st st' (g_sarf gc * (rf_co2 c0' c' n0 n - rf_co2 c0 c n0 n) + g_sarf gn * (rf_n2o c0' c' n0 n m0 m - rf_n2o c0 c n0 n m0 m))).
  { exists c0, c, c0', c', n0, n, m0, m, gc, gn. repeat (split; [assumption|]). reflexivity. }
  eapply both_bind; [apply n_forc_set; [exact H|]|].
  { intros X. destruct X. left; reflexivity. }
  intros s1 s1' B1. eapply both_bind; [apply n_forc_set; [exact B1|reflexivity]|]. intros s2 s2' B2.
  eapply both_bind; [apply n_forc_set; [exact B2|]|].
  { intros X. destruct X. right; left; reflexivity. }
  intros s3 s3' B3. eexists. split; [exact BY|]. split; [exact B3|]. repeat match goal with |- context[hemispheric "three_main" ?q ?a ?b] => change (hemispheric "three_main" q a b) with (a + q, b + q)%num end. cbn [fst snd]. rnum. split; [ring|split; ring].
Qed.
Definition nq (a b : R * hst R) : Prop := fst a = fst b /\ near (snd a) (snd b).
Lemma n_aero st st' y t : near st st' -> not_co2_em t -> aerosol_forcing p emis st y t = aerosol_forcing p emis' st' y t.
Proof.
  intros H NT. assert (Q : forall z, fr_get emis t z = fr_get emis' t z) by (intros z; apply (proj2 AE); exact NT).
  unfold aerosol_forcing. rewrite <- (nr_gas _ _ H), !Q. destruct (key t (dget (s_gas st) t)) as [g|]; [|reflexivity]. cbn [rbind]. destruct (negb _); [reflexivity|].
  destruct (dget (ref_emission_species p) t) as [[r f]|] eqn:D; [|reflexivity].
  assert (NR : not_co2_em r).
  { unfold ref_emission_species in D. cbn [dget] in D.
    repeat match type of D with context[String.eqb ?k t] => destruct (String.eqb k t); [injection D as <- _; intros [J|[J|[]]]; discriminate J|] end. discriminate D. }
  rewrite !(proj2 AE r _ NR). reflexivity.
Qed.
Lemma n_ozone st st' y : near st st' -> both nq (tropospheric_ozone p conc emis y st) (tropospheric_ozone p conc' emis' y st').
Proof.
  intros H. unfold tropospheric_ozone. eapply (both_bind eq).
  { unfold trop_o3_conc. rewrite (n_conc_get st st' "CH4" y H (oth "CH4" eq_refl)), (proj2 AC "CH4" _ (oth "CH4" eq_refl)).
    assert (Q : forall k z, In k ["NOx"; "CO"; "NMVOC"] -> fr_get emis k z = fr_get emis' k z).
    { intros k z I. apply (proj2 AE). intros J. destruct I as [<-|[<-|[<-|[]]]], J as [J|[J|[]]]; discriminate J. }
    rewrite !(Q "NOx"), !(Q "CO"), !(Q "NMVOC") by (cbn; tauto). apply both_same. }
  intros o ? <-. eapply both_bind; [apply n_conc_set; [exact H|reflexivity]|]. intros s s' B.
  eapply both_bind; [apply both_eq, n_conc_get; [exact B|apply oth; reflexivity]|]. intros v ? <-. eapply both_bind; [apply both_eq, n_conc_get; [exact B|apply oth; reflexivity]|]. intros v0 ? <-.
  split; [reflexivity|exact B].
Qed.
Lemma n_component y luc t st st' : near st st' -> not_co2_em t -> other t ->
  both nq (component p conc emis y luc t st) (component p conc' emis' y luc t st').
Proof.
  intros H NT T. assert (G := nr_gas _ _ H). unfold component. destruct (String.eqb t "LANDUSE"); [split; [reflexivity|exact H]|].
  destruct (is_aerosol t).
  { rewrite (n_aero st st' y t H NT). eapply both_bind; [apply both_same|]. intros q ? <-. split; [reflexivity|exact H]. }
  rewrite <- G. destruct (match dget (s_gas st) t with Some g => _ | None => false end).
  { eapply both_bind; [apply both_same|]. intros g ? <-. eapply both_bind; [apply both_eq, n_conc_get; assumption|]. intros x ? <-.
    eapply both_bind; [apply both_eq, n_conc_get; assumption|]. intros x0 ? <-. split; [reflexivity|exact H]. }
  destruct (String.eqb t "TROP_O3").
  { eapply both_bind; [apply n_ozone; exact H|]. intros [o s] [o' s'] [Q B]. cbn [fst snd] in *. subst o'. unfold sarf. rewrite <- G.
    eapply both_bind; [apply both_same|]. intros f ? <-. split; [reflexivity|exact B]. }
  destruct (String.eqb t "STRAT_H2O").
  { eapply both_bind; [apply both_eq, n_forc_get; [exact H|exact steady_ch4]|]. intros m ? <-. unfold sarf. rewrite <- G.
    eapply both_bind; [apply both_same|]. intros f ? <-. split; [reflexivity|exact H]. }
  split; [reflexivity|exact H].
Qed.
Definition nt (D : R) (a b : run4 R) : Prop := near (r_st a) (r_st b) /\ (r_tot b - r_tot a = D /\ r_nh b - r_nh a = D /\ r_sh b - r_sh a = D).
Lemma n_turn D y luc a a' t : not_co2_em t -> both (nt D) a a' -> both (nt D) (tracer_turn p conc emis y luc a t) (tracer_turn p conc' emis' y luc a' t).
Proof.
  intros NT R0. unfold tracer_turn. eapply both_bind; [exact R0|]. intros x x' [B Q]. destruct (smem t ["CO2"; "N2O"; "CH4"]) eqn:M; [split; assumption|].
  eapply both_bind; [apply n_component; [exact B|exact NT|intros ->; discriminate M]|]. intros [q s] [q' s'] [E W]. cbv zeta. cbn [fst snd] in *. subst q'.
  eapply both_bind; [apply n_forc_set; [exact W|reflexivity]|]. intros z z' W'. split; [exact W'|]. cbn [r_tot r_nh r_sh]. destruct (hemi_shift t q (r_nh x) (r_sh x) (r_nh x') (r_sh x')). rnum. lra.
Qed.
Lemma n_pert D y a a' row : both (nt D) a a' -> both (nt D) (pert_turn p y a row) (pert_turn p y a' row).
Proof.
  intros R0. unfold pert_turn. eapply both_bind; [exact R0|]. intros x x' [B Q]. destruct row as [[yy t] v]. rewrite <- (alike_mem _ _ _ t (nr_forc _ _ B)).
  destruct (dmem (s_forc (r_st x)) t); [|split; assumption].
  apply (both_bind (fun o o' => steady t -> o = o')).
  { apply both_cut. intros o o' E E' T. rewrite (n_forc_get _ _ t y B T), E' in E. congruence. }
  intros o o' E. eapply both_bind; [apply n_forc_set; [exact B|]|].
  - intros T. rewrite (E T). reflexivity.
  - intros u u' W. split; [exact W|]. cbn [r_tot r_nh r_sh]. destruct (hemi_shift t v (r_nh x) (r_sh x) (r_nh x') (r_sh x')). rnum. lra.
Qed.
Lemma n_conc2forc y luc sun st st' : near st st' -> just_one p = None ->
  both (fun a b => near (snd a) (snd b) /\ let D := fst (fst (fst (fst b))) - fst (fst (fst (fst a))) in by_co2 y st st' D /\ snd (fst (fst (fst b))) - snd (fst (fst (fst a))) = D /\ snd (fst (fst b)) - snd (fst (fst a)) = D)
    (conc2forc p conc emis erf pert y luc sun st) (conc2forc p conc' emis' erf pert y luc sun st').
Proof.
  intros H J. unfold conc2forc. eapply both_bind; [apply n_three; exact H|]. intros [[[t1 n1] h1] s] [[[t1' n1'] h1'] s'] [D [BY [B Q]]]. cbn [fst snd] in B, Q.
  rewrite <- (alike_keys _ _ _ (nr_forc _ _ B)).
  apply (both_bind (nt D)); [apply both_fold_in; [intros a a' t I; apply n_turn, (nr_names _ _ B), in_or_app; right; exact I|split; assumption]|].
  intros a a' [B1 Q1]. eapply both_bind; [apply both_same|]. intros pre ? <-. cbv zeta.
  eapply (both_bind (nt D)).
  { assert (R0 : nt D {| r_tot := r_tot a + pre; r_nh := r_nh a + pre; r_sh := r_sh a + pre; r_aero := r_aero a; r_st := r_st a |}
                      {| r_tot := r_tot a' + pre; r_nh := r_nh a' + pre; r_sh := r_sh a' + pre; r_aero := r_aero a'; r_st := r_st a' |}).
    { split; [exact B1|]. cbn [r_tot r_nh r_sh]. lra. }
    destruct pert as [pt|]; [|apply R0]. unfold add_forcing_pert. apply both_fold; [intros x x' row; apply n_pert|]. apply R0. }
  intros x x' [B2 Q2]. rewrite J. eapply (both_bind (nt D)); [split; [exact B2|exact Q2]|].
  intros z z' [B3 Q3]. eapply both_bind; [apply n_forc_set; [exact B3|intros X; destruct X; cbn; tauto]|]. intros s3 s3' B4. apply both_skip. intros q q'.
  destruct Q3 as (Q3 & Q4 & Q5). split; [exact B4|]. cbn [fst snd]. cbv zeta. rewrite Q3. split; [exact BY|]. rnum. lra.
Qed.
End Handler.
