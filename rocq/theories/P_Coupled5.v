(** * P_Coupled5: outputs up to a year depend on inputs up to that year (C85) *)
From Coq Require Import Lia.
From Verif Require Import PyBase PyBaseFacts Num M_Gas M_TwoLayer M_Forcing M_Carbon M_CarbonBack M_Driver M_Results Spec_Gas Spec_Driver Spec_Reader Spec_Results Spec_Coupled
  P_Gas3 P_Results P_Driver P_Driver2 P_Driver3 P_Driver4 P_Coupled P_Coupled2.
From Verif Require P_Input2 P_Gas2 Spec_Forc.

Lemma fold_ext {S B} (f g : S -> B -> S) l : (forall s x, f s x = g s x) -> forall s, fold_left f l s = fold_left g l s.
Proof. intros E. induction l as [|x l IH]; intros s; [reflexivity|]. cbn [fold_left]. rewrite E. apply IH. Qed.
Lemma mapM_ext' {B C} (f g : B -> result C) l : (forall x, In x l -> f x = g x) -> mapM f l = mapM g l.
Proof.
  induction l as [|x l IH]; intros E; [reflexivity|]. cbn [mapM]. rewrite E by (left; reflexivity). rewrite IH; [reflexivity|]. intros z I. apply E. right; exact I.
Qed.
Lemma rbind_ext {B C} (x : result B) (f g : B -> result C) : (forall b, x = Ok b -> f b = g b) -> rbind x f = rbind x g.
Proof. destruct x; cbn; auto. Qed.
Lemma keys_dmem {V} (d d' : dict V) k : dkeys d = dkeys d' -> dmem d k = dmem d' k.
Proof.
  intros E. destruct (dmem d' k) eqn:M; [apply dget_In_keys; rewrite E; apply dget_In_keys; exact M|].
  destruct (dmem d k) eqn:M'; [|reflexivity]. apply dget_In_keys in M'. rewrite E in M'. apply dget_In_keys in M'. congruence.
Qed.

Section Handler.
Context {A : Type} {N : Num A}.
Variables (S Fb : Type) (co2em2conc : S -> Z -> A -> Fb -> S * A).
Variables (p : hpam A) (conc conc' emis emis' nat4 nat4' nat2 nat2' erf erf' : frame A) (y : Z).
Hypothesis AC : agree_on (conc_until p y) conc conc'.
Hypothesis AE : agree_on (emis_until p y) emis emis'.
Hypothesis A4 : agree_on (until y) nat4 nat4'.
Hypothesis A2 : agree_on (until y) nat2 nat2'.

Lemma gc k : fr_get conc k y = fr_get conc' k y.
Proof. apply AC. left. lia. Qed.
Lemma ge k : fr_get emis k y = fr_get emis' k y.
Proof. apply AE. left. lia. Qed.

Lemma fill_agree avoid st : fill_one_row conc y avoid st = fill_one_row conc' y avoid st.
Proof.
  unfold fill_one_row. apply fold_ext. intros acc t. apply rbind_ext. intros s _. destruct (smem t avoid); [reflexivity|].
  rewrite (keys_dmem _ _ t (proj1 AC)). destruct (dmem _ t); [|reflexivity]. rewrite gc. reflexivity.
Qed.
Lemma co2_agree cc fb st : co2_year S Fb co2em2conc emis cc y fb st = co2_year S Fb co2em2conc emis' cc y fb st.
Proof. unfold co2_year, co2_emission. rewrite !ge. reflexivity. Qed.
Lemma lifetime_agree g q c : methane_lifetime p emis g q c y = methane_lifetime p emis' g q c y.
Proof.
  unfold methane_lifetime. rewrite !ge. destruct (String.eqb_spec (lifetime_mode p) "TAR") as [T|]; [|reflexivity].
  rewrite (proj2 AE "NOx" 2000%Z), (proj2 AE "CO" 2000%Z), (proj2 AE "NMVOC" 2000%Z); [reflexivity| | |]; right; (split; [cbn; tauto|right; auto]).
Qed.
Lemma tracer_agree fb acc t : emi2conc_tracer S Fb co2em2conc p conc emis nat4 nat2 y fb acc t = emi2conc_tracer S Fb co2em2conc p conc' emis' nat4' nat2' y fb acc t.
Proof.
  unfold emi2conc_tracer. apply rbind_ext. intros [cc st] _. apply rbind_ext. intros g _. destruct (String.eqb (g_unit g) "-"); [reflexivity|].
  destruct (String.eqb t "CO2"); [apply co2_agree|]. rewrite gc. apply rbind_ext. intros prev _.
  assert (A4' := proj2 A4 "CH4" y ltac:(unfold until; lia)). assert (A2' := proj2 A2 "N2O" y ltac:(unfold until; lia)). rewrite A4', A2'.
  assert (L := lifetime_agree g (ndiv (nofZ 1) (g_tau1 g)) prev). cbv zeta. rewrite L. apply rbind_ext. intros [g' q'] _. rewrite ge. reflexivity.
Qed.
Lemma emi2conc_agree fb cc st : emi2conc S Fb co2em2conc p conc emis nat4 nat2 y fb cc st = emi2conc S Fb co2em2conc p conc' emis' nat4' nat2' y fb cc st.
Proof.
  unfold emi2conc. rewrite fill_agree. destruct (conc_run p); [reflexivity|]. destruct (Z.ltb y (emstart p)).
  - rewrite co2_agree. apply rbind_ext. intros a _. rewrite fill_agree. reflexivity.
  - apply fold_ext. intros acc t. apply tracer_agree.
Qed.

Hypothesis WE : wf (fr_cols erf).
Hypothesis WE' : wf (fr_cols erf').
Hypothesis AF : agree_on (until y) erf erf'.
Hypothesis Y0 : (nystart p <= y)%Z.

Lemma tot_get (f : frame A) : wf (fr_cols f) -> tot_vanilla f y = rbind (mapM (fun k => fr_get f k y) (dkeys (fr_cols f))) (fun vs => Ok (nsum vs)).
Proof.
  intros W. unfold tot_vanilla. f_equal. unfold dkeys.
  assert (Q : forall l, (forall kv, In kv l -> In kv (fr_cols f)) -> mapM (fun kv : string * list A => key YEAR (yget (combine (fr_index f) (snd kv)) y)) l = mapM (fun k => fr_get f k y) (map fst l)).
  { induction l as [|[k v] l IH]; intros I; [reflexivity|]. cbn [mapM map fst snd]. rewrite IH by (intros kv J; apply I; right; exact J).
    unfold fr_get, fr_col. rewrite (wf_In_dget _ _ _ W (I (k, v) (or_introl eq_refl))). reflexivity. }
  apply Q. auto.
Qed.
Lemma tot_agree : tot_vanilla erf y = tot_vanilla erf' y.
Proof.
  rewrite !tot_get by assumption. rewrite (proj1 AF). f_equal. apply mapM_ext'. intros k _. apply AF. unfold until. lia.
Qed.
Lemma component_agree luc t st : component p conc emis y luc t st = component p conc' emis' y luc t st.
Proof.
  unfold component. destruct (String.eqb t "LANDUSE"); [reflexivity|]. destruct (is_aerosol t).
  - unfold aerosol_forcing. apply f_equal2; [|reflexivity]. apply rbind_ext. intros g _. rewrite ge. rewrite (proj2 AE t (nystart p)) by (left; exact Y0).
    destruct (negb _); [reflexivity|]. destruct (dget _ t) as [[r f]|]; [|reflexivity]. rewrite ge, (proj2 AE r (nystart p)) by (left; exact Y0). reflexivity.
  - destruct (match dget (s_gas st) t with Some _ => _ | None => _ end); [reflexivity|]. destruct (String.eqb t "TROP_O3"); [|reflexivity].
    unfold tropospheric_ozone, trop_o3_conc. rewrite !ge. rewrite (proj2 AC "CH4" (ref_yr p)) by (right; auto).
    rewrite (proj2 AE "NOx" (ref_yr p)), (proj2 AE "CO" (ref_yr p)), (proj2 AE "NMVOC" (ref_yr p)); [reflexivity| | |]; right; (split; [cbn; tauto|left; reflexivity]).
Qed.
Lemma conc2forc_agree pert pert' luc sun st : filter (fun r => Z.eqb (fst (fst r)) y) (Spec_Forc.pert_rows pert) = filter (fun r => Z.eqb (fst (fst r)) y) (Spec_Forc.pert_rows pert') ->
  conc2forc p conc emis erf pert y luc sun st = conc2forc p conc' emis' erf' pert' y luc sun st.
Proof.
  intros P. unfold conc2forc. apply rbind_ext. intros [[[tot nh] sh] st1] _.
  assert (L : forall l a, fold_left (tracer_turn p conc emis y luc) l a = fold_left (tracer_turn p conc' emis' y luc) l a).
  { intros l. apply fold_ext. intros acc t. unfold tracer_turn. apply rbind_ext. intros a _. rewrite component_agree. reflexivity. }
  rewrite L. apply rbind_ext. intros a _. rewrite tot_agree. apply rbind_ext. intros pre _.
  assert (E : forall a : run4 A, match pert with None => Ok a | Some pt => add_forcing_pert p pt y a end = match pert' with None => Ok a | Some pt => add_forcing_pert p pt y a end).
  { intros b. unfold Spec_Forc.pert_rows in P. unfold add_forcing_pert. destruct pert, pert'; [rewrite P; reflexivity|rewrite P; reflexivity|rewrite <- P; reflexivity|reflexivity]. }
  cbv zeta. rewrite E. reflexivity.
Qed.
End Handler.

(** ** What a year leaves alone *)
Section Reach.
Context {A : Type} {N : Num A}.
Variables (p : hpam A) (y : Z).
(** entries of year [y] may change, nothing else *)
Inductive reach : hst A -> hst A -> Prop :=
| r_refl st : reach st st
| r_conc st t v st' : conc_set st t y v = Ok st' -> reach st st'
| r_forc st t q st' : forc_set p st t y q = Ok st' -> reach st st'
| r_gas st g : dkeys g = dkeys (s_gas st) -> reach st (set_gas st g)
| r_zero st : reach st (add_row_of_zeros y st)
| r_trans a b c : reach a b -> reach b c -> reach a c.

Definition same_past (st st' : hst A) : Prop :=
  dkeys (s_conc st') = dkeys (s_conc st) /\ dkeys (s_forc st') = dkeys (s_forc st) /\
  (forall k z, z <> y -> conc_get st' k z = conc_get st k z) /\
  (forall k v v' i, dget (s_forc st) k = Some v -> dget (s_forc st') k = Some v' -> i <> forc_ix p y -> nth_error v' i = nth_error v i).

Lemma yget_yset_other {V} (d : list (Z * V)) z v : z <> y -> yget (yset d y v) z = yget d z.
Proof.
  intros E. induction d as [|[k w] d IH]; cbn [yset yget].
  - destruct (Z.eqb_spec y z); [congruence|reflexivity].
  - destruct (Z.eqb_spec k y); cbn [yget]; [destruct (Z.eqb_spec k z); [congruence|reflexivity]|]. destruct (Z.eqb_spec k z); [reflexivity|exact IH].
Qed.
Lemma set_nth_other {B} (l : list B) : forall n i v, i <> n -> nth_error (set_nth n v l) i = nth_error l i.
Proof.
  induction l as [|x l IH]; intros n i v E; [reflexivity|]. destruct n as [|n], i as [|i]; cbn [set_nth nth_error]; try reflexivity; [congruence|]. apply IH. congruence.
Qed.
Lemma same_past_refl st : same_past st st.
Proof. split; [|split; [|split]]; auto. intros k v v' i E E' _. congruence. Qed.
Lemma reach_past a b : reach a b -> same_past a b.
Proof.
  induction 1 as [st|st t v st' H|st t q st' H|st g DG|st|a b c R1 [K1 [F1 [C1 V1]]] R2 [K2 [F2 [C2 V2]]]].
  - apply same_past_refl.
  - unfold conc_set in H. destruct (dget (s_conc st) t) as [d|] eqn:D; cbn [key rbind] in H; [|discriminate]. inversion H; subst st'. clear H.
    assert (M : In t (dkeys (s_conc st))) by (apply dget_In_keys, dmem_true; eauto).
    split; [|split; [|split]]; cbn [set_conc s_conc s_forc].
    + rewrite dkeys_dset. destruct (dmem (s_conc st) t) eqn:Q; [reflexivity|]. apply dget_In_keys in M. congruence.
    + reflexivity.
    + intros k z Zy. unfold conc_get. cbn [set_conc s_conc]. rewrite dget_dset. destruct (String.eqb_spec t k) as [->|]; [|reflexivity]. rewrite D. cbn [key rbind].
      rewrite yget_yset_other by exact Zy. reflexivity.
    + intros k v1 v' i E E' _. congruence.
  - unfold forc_set in H. destruct (dget (s_forc st) t) as [d|] eqn:D; cbn [key rbind] in H; [|discriminate]. destruct (Nat.ltb _ _); [|discriminate]. inversion H; subst st'. clear H.
    assert (M : In t (dkeys (s_forc st))) by (apply dget_In_keys, dmem_true; eauto).
    split; [|split; [|split]]; cbn [set_forc s_conc s_forc].
    + reflexivity.
    + rewrite dkeys_dset. destruct (dmem (s_forc st) t) eqn:Q; [reflexivity|]. apply dget_In_keys in M. congruence.
    + reflexivity.
    + intros k v1 v' i E E' I. rewrite dget_dset in E'. destruct (String.eqb_spec t k) as [->|]; [|congruence]. inversion E'; subst v'. rewrite D in E. inversion E; subst v1. apply set_nth_other. exact I.
  - split; [|split; [|split]]; auto. cbn [set_gas s_forc]. intros k v v' i E E' _. congruence.
  - split; [|split; [|split]]; cbn [add_row_of_zeros set_conc s_conc s_forc].
    + match goal with |- dkeys (map ?f ?l) = _ => change (dkeys (map f l)) with (map fst (map f l)) end. rewrite map_map. reflexivity.
    + reflexivity.
    + intros k z Zy. unfold conc_get, add_row_of_zeros. cbn [set_conc s_conc]. 
      assert (Q : forall l : dict (list (Z * A)), dget (map (fun kv => (fst kv, yset (snd kv) y (nofZ 0))) l) k = option_map (fun d => yset d y (nofZ 0)) (dget l k)).
      { induction l as [|[k' d] l IH]; [reflexivity|]. cbn [map fst snd dget]. destruct (String.eqb k' k); [reflexivity|exact IH]. }
      rewrite Q. destruct (dget (s_conc st) k) as [d|]; cbn [option_map key rbind]; [|reflexivity]. rewrite yget_yset_other by exact Zy. reflexivity.
    + intros k v v' i E E' _. congruence.
  - split; [congruence|]. split; [congruence|]. split; [intros k z Zy; rewrite C2, C1 by exact Zy; reflexivity|].
    intros k v v' i E E' I. assert (M : In k (dkeys (s_forc b))) by (rewrite F1; apply dget_In_keys, dmem_true; eauto). apply dget_In_keys, dmem_true in M. destruct M as [w W].
    rewrite (V2 k w v' i W E' I). apply (V1 k v w i E W I).
Qed.

Lemma reach_gas a b : reach a b -> dkeys (s_gas b) = dkeys (s_gas a).
Proof.
  induction 1 as [st|st t v st' H|st t q st' H|st g DG|st|a b c R1 E1 R2 E2]; try reflexivity.
  - unfold conc_set in H. destruct (dget (s_conc st) t); cbn [key rbind] in H; [|discriminate]. inversion H. reflexivity.
  - unfold forc_set in H. destruct (dget (s_forc st) t); cbn [key rbind] in H; [|discriminate]. destruct (Nat.ltb _ _); [|discriminate]. inversion H. reflexivity.
  - exact DG.
  - congruence.
Qed.

Lemma reach_fold {B S} (f : result S -> B -> result S) (pr : S -> hst A) : (forall a x b, f (Ok a) x = Ok b -> reach (pr a) (pr b)) -> (forall e x, f (Err e) x = Err e) ->
  forall l a b, fold_left f l (Ok a) = Ok b -> reach (pr a) (pr b).
Proof.
  intros F E. induction l as [|x l IH]; intros a b H; cbn [fold_left] in H; [inversion H; apply r_refl|].
  destruct (f (Ok a) x) as [a'|e] eqn:FX; [eapply r_trans; [eapply F; exact FX|apply IH; exact H]|].
  exfalso. clear -E H. induction l as [|z l IH]; cbn [fold_left] in H; [discriminate|]. rewrite E in H. apply IH. exact H.
Qed.
Lemma fill_reach conc avoid st st' : fill_one_row conc y avoid st = Ok st' -> reach st st'.
Proof.
  unfold fill_one_row. apply (reach_fold _ (fun s => s)); [|reflexivity]. intros a x b H. cbn [rbind] in H. destruct (smem x avoid); [inversion H; apply r_refl|].
  destruct (dmem _ x); [|eapply r_conc; exact H]. destruct (fr_get conc x y); cbn [rbind] in H; [|discriminate]. eapply r_conc; exact H.
Qed.
Lemma emi2conc_reach (S Fb : Type) co2 conc emis n4 n2 fb cc st cc' st' : emi2conc S Fb co2 p conc emis n4 n2 y fb cc st = Ok (cc', st') -> reach st st'.
Proof.
  assert (CO : forall a fb cc b, co2_year S Fb co2 emis cc y fb a = Ok b -> reach a (snd b)).
  { intros a fb0 cc0 b H. unfold co2_year in H. destruct (co2_emission emis a y); cbn [rbind] in H; [|discriminate]. cbv zeta in H.
    destruct (conc_set a "CO2" y _) as [s1|] eqn:C; cbn [rbind] in H; [|discriminate]. inversion H; subst b. cbn. eapply r_conc; exact C. }
  unfold emi2conc. destruct (conc_run p).
  - destruct (fill_one_row _ _ _ _) as [s1|] eqn:F; cbn [rbind]; [|discriminate]. intros H; inversion H; subst. eapply fill_reach; exact F.
  - destruct (Z.ltb y (emstart p)).
    + destruct (co2_year _ _ _ _ _ _ _ _) as [[c1 s1]|] eqn:C; cbn [rbind]; [|discriminate]. apply CO in C. cbn [snd] in *.
      destruct (fill_one_row _ _ _ _) as [s2|] eqn:F; cbn [rbind]; [|discriminate]. intros H; inversion H; subst. eapply r_trans; [exact C|eapply fill_reach; exact F].
    + intros H. eapply r_trans; [apply r_zero|]. change (reach (snd (cc, add_row_of_zeros y st)) (snd (cc', st'))). revert H.
      apply (reach_fold (emi2conc_tracer S Fb co2 p conc emis n4 n2 y fb) (@snd S (hst A))); [|reflexivity].
      intros [c0 s0] x b H. unfold emi2conc_tracer in H. cbn [rbind] in H. destruct (dget (s_gas s0) x) as [g|] eqn:DG; cbn [key rbind] in H; [|discriminate].
      destruct (String.eqb (g_unit g) "-"); [inversion H; apply r_refl|]. destruct (String.eqb x "CO2"); [eapply CO; exact H|].
      destruct (if Z.gtb y (nystart p) then _ else _) as [pv|] in H; cbn [rbind] in H; [|discriminate]. cbv zeta in H.
      destruct (if String.eqb x "CH4" then _ else _) as [[g' q']|] in H; cbn [rbind] in H; [|discriminate].
      destruct (fr_get emis x y) as [e|] in H; cbn [rbind] in H; [|discriminate].
      destruct (conc_set _ x y _) as [s1|] eqn:C in H; cbn [rbind] in H; [|discriminate]. inversion H; subst b. cbn [snd].
      eapply r_trans; [apply r_gas|eapply r_conc; exact C]. rewrite dkeys_dset. assert (Q : dmem (s_gas s0) x = true) by (apply dmem_true; eauto). rewrite Q. reflexivity.
Qed.
Lemma conc2forc_reach conc emis erf pert luc sun st q st' : conc2forc p conc emis erf pert y luc sun st = Ok (q, st') -> reach st st'.
Proof.
  unfold conc2forc. destruct (forc_three_main p y st) as [[[[tot nh] sh] s1]|] eqn:M; cbn [rbind]; [|discriminate].
  assert (R1 : reach st s1).
  { unfold forc_three_main in M. do 6 (destruct (conc_get _ _ _) in M; cbn [rbind] in M; [|discriminate]). do 3 (destruct (sarf _ _) in M; cbn [rbind] in M; [|discriminate]). cbv zeta in M.
    destruct (forc_set p st "CO2" y _) as [u1|] eqn:F1 in M; cbn [rbind] in M; [|discriminate]. destruct (forc_set p u1 "CH4" y _) as [u2|] eqn:F2 in M; cbn [rbind] in M; [|discriminate].
    destruct (forc_set p u2 "N2O" y _) as [u3|] eqn:F3 in M; cbn [rbind] in M; [|discriminate]. inversion M; subst.
    eapply r_trans; [eapply r_forc; exact F1|]. eapply r_trans; [eapply r_forc; exact F2|eapply r_forc; exact F3]. }
  destruct (fold_left (tracer_turn p conc emis y luc) _ _) as [a|] eqn:T; cbn [rbind]; [|discriminate].
  assert (R2 : reach s1 (r_st a)).
  { change s1 with (r_st {| r_tot := tot; r_nh := nh; r_sh := sh; r_aero := nofZ 0; r_st := s1 |}). revert T.
    apply (reach_fold (tracer_turn p conc emis y luc) (@r_st A)); [|reflexivity]. clear. intros a x b H. unfold tracer_turn in H. cbn [rbind] in H.
    destruct (smem x _); [inversion H; apply r_refl|]. destruct (component p conc emis y luc x (r_st a)) as [[q s2]|] eqn:C; cbn [rbind fst snd] in H; [|discriminate]. cbv zeta in H.
    destruct (forc_set p s2 x y q) as [s3|] eqn:F; cbn [rbind] in H; [|discriminate]. inversion H; subst b. cbn [r_st]. eapply r_trans; [|eapply r_forc; exact F].
    unfold component in C. destruct (String.eqb x "LANDUSE"); [inversion C; apply r_refl|]. destruct (is_aerosol x).
    { destruct (aerosol_forcing _ _ _ _ _); cbn [rbind] in C; [|discriminate]. inversion C; apply r_refl. }
    destruct (match dget (s_gas (r_st a)) x with Some _ => _ | None => _ end).
    { destruct (key x _); cbn [rbind] in C; [|discriminate]. do 2 (destruct (conc_get _ _ _) in C; cbn [rbind] in C; [|discriminate]). inversion C; apply r_refl. }
    destruct (String.eqb x "TROP_O3").
    { unfold tropospheric_ozone in C. destruct (trop_o3_conc _ _ _ _ _); cbn [rbind] in C; [|discriminate].
      destruct (conc_set (r_st a) "TROP_O3" y _) as [s4|] eqn:K in C; cbn [rbind] in C; [|discriminate]. do 2 (destruct (conc_get _ _ _) in C; cbn [rbind] in C; [|discriminate]).
      destruct (sarf _ _) in C; cbn [rbind fst snd] in C; [|discriminate]. inversion C; subst. eapply r_conc; exact K. }
    destruct (String.eqb x "STRAT_H2O").
    { destruct (forc_get _ _ _ _); cbn [rbind] in C; [|discriminate]. destruct (sarf _ _); cbn [rbind] in C; [|discriminate]. inversion C; apply r_refl. }
    inversion C; apply r_refl. }
  destruct (tot_vanilla erf y) as [pre|]; cbn [rbind]; [|discriminate]. cbv zeta.
  set (a' := {| r_tot := _; r_nh := _; r_sh := _; r_aero := r_aero a; r_st := r_st a |}).
  destruct (match pert with None => Ok a' | Some pt => add_forcing_pert p pt y a' end) as [b|] eqn:P; cbn [rbind]; [|discriminate].
  assert (R3 : reach (r_st a) (r_st b)).
  { change (r_st a) with (r_st a'). destruct pert as [pt|]; [|inversion P; apply r_refl]. revert P. unfold add_forcing_pert.
    apply (reach_fold (pert_turn p y) (@r_st A)); [|reflexivity]. clear. intros a [[z t] v] b H. unfold pert_turn in H. cbn [rbind] in H.
    destruct (dmem _ t); [|inversion H; apply r_refl]. destruct (forc_get _ _ _ _); cbn [rbind] in H; [|discriminate].
    destruct (forc_set p (r_st a) t y _) as [s3|] eqn:F; cbn [rbind] in H; [|discriminate]. inversion H; subst b. cbn [r_st]. eapply r_forc; exact F. }
  destruct (match just_one p with None => Ok b | Some j => _ end) as [d|] eqn:J; cbn [rbind]; [|discriminate].
  assert (R4 : r_st d = r_st b).
  { destruct (just_one p); [|inversion J; reflexivity]. destruct (forc_get _ _ _ _); cbn [rbind] in J; [|discriminate]. inversion J; reflexivity. }
  destruct (forc_set p (r_st d) "Total_forcing" y (r_tot d)) as [s5|] eqn:F; cbn [rbind]; [|discriminate]. destruct (abs_total _ _ _); cbn [rbind]; [|discriminate].
  intros H. inversion H; subst. rewrite R4 in F. eapply r_trans; [exact R1|]. eapply r_trans; [exact R2|]. eapply r_trans; [exact R3|]. eapply r_forc; exact F.
Qed.
End Reach.
