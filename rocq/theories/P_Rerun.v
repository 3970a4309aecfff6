(** * P_Rerun: runs on a used instance (C96) *)
From Coq Require Import Lia.
From Verif Require Import PyBase PyBaseFacts Num M_Gas M_Forcing M_Carbon M_CarbonBack M_CarbonBox M_Driver M_Results M_BoxRun Spec_Driver Spec_Rerun P_Driver P_Driver2.

(** ** Equal results, or the same exception *)
Definition rres {B C} (E : B -> C -> Prop) (a : result B) (b : result C) : Prop :=
  match a, b with Ok x, Ok y => E x y | Err e, Err e' => e = e' | _, _ => False end.
Lemma rres_bind {B B' C C'} (E : B -> B' -> Prop) (F : C -> C' -> Prop) a a' f f' : rres E a a' -> (forall x x', E x x' -> rres F (f x) (f' x')) ->
  rres F (rbind a f) (rbind a' f').
Proof. intros H K. destruct a as [x|], a' as [x'|]; cbn in *; try contradiction; [apply K; exact H|exact H]. Qed.
Lemma rres_same {B} (a : result B) : rres eq a a. Proof. destruct a; reflexivity. Qed.
Lemma rres_eq {B} (a b : result B) : a = b -> rres eq a b. Proof. intros ->. apply rres_same. Qed.
Lemma rres_eq_inv {B} (a b : result B) : rres eq a b -> a = b.
Proof. destruct a, b; cbn; intros H; try contradiction; congruence. Qed.
Lemma rres_fold {B B' X} (E : B -> B' -> Prop) (f : result B -> X -> result B) (f' : result B' -> X -> result B') :
  (forall a a' x, rres E a a' -> rres E (f a x) (f' a' x)) -> forall l a a', rres E a a' -> rres E (fold_left f l a) (fold_left f' l a').
Proof. intros H l. induction l as [|x l IH]; intros a a' R; [exact R|]. cbn [fold_left]. apply IH, H, R. Qed.

Section Gas.
Context {A : Type} {N : Num A}.
Implicit Types (gt : dict (gas A)) (st : hst A).

Lemma sgas_refl t (g : gas A) : same_gas t g g. Proof. constructor; reflexivity. Qed.
Lemma sgas_trans t (g1 g2 g3 : gas A) : same_gas t g1 g2 -> same_gas t g2 g3 -> same_gas t g1 g3.
Proof. intros [] []. constructor; try congruence. intros X Y. rewrite sg_nat by assumption. auto. Qed.
Lemma gases_refl gt : same_gases gt gt. Proof. induction gt as [|[k g] gt IH]; constructor; [split; [reflexivity|apply sgas_refl]|exact IH]. Qed.
Lemma gases_trans gt1 gt2 gt3 : same_gases gt1 gt2 -> same_gases gt2 gt3 -> same_gases gt1 gt3.
Proof.
  intros H. revert gt3. induction H as [|[a g] [b h] l l' [E Q] _ IH]; intros gt3 K; [inversion K; constructor|]. inversion K as [|? [c i] ? l3 [E2 Q2] K2]; subst.
  cbn in *. subst b c. constructor; [split; [reflexivity|]|apply IH; exact K2]. cbn. eapply sgas_trans; eassumption.
Qed.
Lemma gases_keys gt gt' : same_gases gt gt' -> dkeys gt = dkeys gt'.
Proof. unfold dkeys. induction 1 as [|? ? ? ? [E _] _ IH]; [reflexivity|]. cbn. congruence. Qed.
Lemma gases_get gt gt' t : same_gases gt gt' -> rres (same_gas t) (key t (dget gt t)) (key t (dget gt' t)).
Proof.
  induction 1 as [|[a v] [b w] d d' [E Q] _ IH]; [reflexivity|]. cbn [dget fst snd] in *. subst b.
  destruct (String.eqb a t) eqn:K; [apply String.eqb_eq in K; subst a; exact Q|exact IH].
Qed.
Lemma gases_opt gt gt' t : same_gases gt gt' ->
  match dget gt t, dget gt' t with Some g, Some g' => same_gas t g g' | None, None => True | _, _ => False end.
Proof. intros H. pose proof (gases_get gt gt' t H) as G. destruct (dget gt t), (dget gt' t); cbn in G; try contradiction; auto. Qed.
Lemma gases_set gt gt' t g g' : same_gases gt gt' -> same_gas t g g' -> same_gases (dset gt t g) (dset gt' t g').
Proof.
  intros H Q. induction H as [|[a x] [b w] d d' [E P] R IH]; cbn [dset]; [constructor; [split; [reflexivity|exact Q]|constructor]|].
  cbn in E. subst b. destruct (String.eqb a t) eqn:K.
  - apply String.eqb_eq in K. subst a. constructor; [split; [reflexivity|exact Q]|exact R].
  - constructor; [split; [reflexivity|exact P]|exact IH].
Qed.

Record same_st st st' : Prop := { ss_gas : same_gases (s_gas st) (s_gas st'); ss_conc : s_conc st = s_conc st'; ss_forc : s_forc st = s_forc st' }.
Variables (p : hpam A) (conc emis nat4 nat2 erf : frame A) (pert : option (ptable A)).

Lemma u_reset gt gt' : same_gases gt gt' -> same_st (reset_arrays p gt erf) (reset_arrays p gt' erf).
Proof.
  intros H. assert (K : gases_spicy gt erf = gases_spicy gt' erf) by (unfold gases_spicy; rewrite (gases_keys _ _ H); reflexivity).
  constructor; cbn [s_gas s_conc s_forc reset_arrays].
  - exact H.
  - rewrite K. f_equal. apply filter_ext. intros t. pose proof (gases_opt gt gt' t H) as G. destruct (dget gt t) as [g|], (dget gt' t) as [g'|]; try contradiction; [|reflexivity].
    rewrite (sg_unit _ _ _ G). reflexivity.
  - rewrite K. reflexivity.
Qed.
Lemma u_conc_get st st' t y : same_st st st' -> conc_get st t y = conc_get st' t y.
Proof. intros [G C F]. unfold conc_get. rewrite C. reflexivity. Qed.
Lemma u_conc_set st st' t y v : same_st st st' -> rres same_st (conc_set st t y v) (conc_set st' t y v).
Proof. intros [G C F]. unfold conc_set. rewrite C. destruct (dget (s_conc st') t); [|reflexivity]. constructor; cbn; congruence || assumption. Qed.
Lemma u_forc_get st st' t y : same_st st st' -> forc_get p st t y = forc_get p st' t y.
Proof. intros [G C F]. unfold forc_get. rewrite F. reflexivity. Qed.
Lemma u_forc_set st st' t y v : same_st st st' -> rres same_st (forc_set p st t y v) (forc_set p st' t y v).
Proof.
  intros [G C F]. unfold forc_set. rewrite F. destruct (dget (s_forc st') t); [|reflexivity]. cbn [key rbind]. destruct (Nat.ltb _ _); [|reflexivity].
  constructor; cbn; congruence || assumption.
Qed.
Lemma u_fill y avoid st st' : same_st st st' -> rres same_st (fill_one_row conc y avoid st) (fill_one_row conc y avoid st').
Proof.
  intros H. unfold fill_one_row. rewrite (ss_conc _ _ H). apply rres_fold; [|exact H].
  intros a a' t R. eapply rres_bind; [exact R|]. intros x x' B. destruct (smem t avoid); [exact B|]. destruct (dmem (fr_cols conc) t); [|apply u_conc_set; exact B].
  eapply rres_bind; [apply rres_same|]. intros v v' <-. apply u_conc_set; exact B.
Qed.
Lemma u_sarf st st' t : same_st st st' -> sarf st t = sarf st' t.
Proof.
  intros H. unfold sarf. pose proof (gases_opt _ _ t (ss_gas _ _ H)) as G. destruct (dget (s_gas st) t) as [g|], (dget (s_gas st') t) as [g'|]; try contradiction; [|reflexivity].
  cbn. rewrite (sg_sarf _ _ _ G). reflexivity.
Qed.

Section Carbon.
Variables (S Fb : Type) (co2 : S -> Z -> A -> Fb -> S * A) (E : S -> S -> Prop).
Hypothesis EY : forall a b y em fb, E a b -> snd (co2 a y em fb) = snd (co2 b y em fb) /\ E (fst (co2 a y em fb)) (fst (co2 b y em fb)).
Definition up (a b : S * hst A) : Prop := E (fst a) (fst b) /\ same_st (snd a) (snd b).
Lemma u_co2 y fb cc cc' st st' : E cc cc' -> same_st st st' -> rres up (co2_year S Fb co2 emis cc y fb st) (co2_year S Fb co2 emis cc' y fb st').
Proof.
  intros HE H. unfold co2_year. eapply (rres_bind eq).
  { unfold co2_emission. eapply (rres_bind eq); [apply rres_same|]. intros ff ? <-. eapply (rres_bind eq); [apply rres_same|]. intros af ? <-.
    eapply rres_bind; [apply gases_get, H|]. intros g g' G. cbn. rewrite (sg_nat _ _ _ G) by discriminate. reflexivity. }
  intros em ? <-. cbv zeta. destruct (EY cc cc' y em fb HE) as [Q1 Q2]. rewrite Q1.
  eapply rres_bind; [apply u_conc_set; exact H|]. intros x x' B. split; assumption.
Qed.
Lemma u_tracer y fb a a' t : rres up a a' -> rres up (emi2conc_tracer S Fb co2 p conc emis nat4 nat2 y fb a t) (emi2conc_tracer S Fb co2 p conc emis nat4 nat2 y fb a' t).
Proof.
  intros R. unfold emi2conc_tracer. eapply rres_bind; [exact R|]. intros [cc st] [cc' st'] [B1 B2]. cbn [fst snd] in B1, B2.
  eapply rres_bind; [apply gases_get, B2|]. intros g g' G. rewrite (sg_unit _ _ _ G). destruct (String.eqb (g_unit g') "-"); [split; assumption|].
  destruct (String.eqb t "CO2"); [apply u_co2; assumption|].
  eapply (rres_bind eq); [destruct (y >? nystart p)%Z; [apply rres_eq, u_conc_get; assumption|apply rres_same]|]. intros prev ? <-. cbv zeta.
  eapply (rres_bind (fun x x' => same_gas t (fst x) (fst x') /\ g_beta (fst x) = g_beta (fst x') /\ g_nat (fst x) = g_nat (fst x') /\ snd x = snd x')).
  { rewrite (sg_tau1 _ _ _ G). destruct (String.eqb t "CH4") eqn:T4; [|destruct (String.eqb t "N2O") eqn:T2].
    - eapply (rres_bind eq); [apply rres_same|]. intros n ? <-. eapply (rres_bind eq).
      { unfold methane_lifetime. eapply (rres_bind eq); [apply rres_same|]. intros q ? <-. rewrite (sg_tau2 _ _ _ G), (sg_tau3 _ _ _ G). apply rres_same. }
      intros q ? <-. cbn. destruct G. split; [constructor; try assumption; reflexivity|]. auto.
    - eapply (rres_bind eq); [apply rres_same|]. intros n ? <-. cbn. destruct G. split; [constructor; try assumption; reflexivity|]. auto.
    - cbn. destruct G. apply String.eqb_neq in T4, T2. split; [constructor; assumption|]. auto. }
  intros [g1 q1] [g1' q1'] (G1 & G2 & G3 & G4). cbn [fst snd] in *. subst q1'. eapply (rres_bind eq); [apply rres_same|]. intros e ? <-.
  rewrite G2, G3. eapply rres_bind; [apply u_conc_set|].
  - constructor; cbn; [apply gases_set; [apply B2|exact G1]|apply B2|apply B2].
  - intros u u' W. split; assumption.
Qed.
Lemma u_emi2conc y fb cc cc' st st' : E cc cc' -> same_st st st' ->
  rres up (emi2conc S Fb co2 p conc emis nat4 nat2 y fb cc st) (emi2conc S Fb co2 p conc emis nat4 nat2 y fb cc' st').
Proof.
  intros HE H. unfold emi2conc. destruct (conc_run p).
  { eapply rres_bind; [apply u_fill; exact H|]. intros x x' B. split; assumption. }
  destruct (y <? emstart p)%Z.
  { eapply rres_bind; [apply u_co2; eassumption|]. intros x x' [B1 B2]. eapply rres_bind; [apply u_fill; exact B2|]. intros z z' W. split; assumption. }
  rewrite (ss_conc _ _ H). apply rres_fold; [intros a a' t; apply u_tracer|]. split; [exact HE|]. destruct H as [G C F]. constructor; cbn; congruence || assumption.
Qed.
End Carbon.

Definition u2 {X} (a b : X * hst A) : Prop := fst a = fst b /\ same_st (snd a) (snd b).
Lemma u_three y st st' : same_st st st' -> rres u2 (forc_three_main p y st) (forc_three_main p y st').
Proof.
  intros H. unfold forc_three_main. rewrite !(u_sarf st st' _ H). rewrite !(u_conc_get st st' _ _ H).
  do 9 (eapply (rres_bind eq); [apply rres_same|]; intros ? ? <-). cbv zeta.
  eapply rres_bind; [apply u_forc_set; exact H|]. intros s1 s1' B1. eapply rres_bind; [apply u_forc_set; exact B1|]. intros s2 s2' B2.
  eapply rres_bind; [apply u_forc_set; exact B2|]. intros s3 s3' B3. split; [reflexivity|exact B3].
Qed.
Lemma u_component y luc t st st' : same_st st st' -> rres u2 (component p conc emis y luc t st) (component p conc emis y luc t st').
Proof.
  intros H. unfold component. destruct (String.eqb t "LANDUSE"); [split; [reflexivity|exact H]|]. destruct (is_aerosol t).
  { eapply (rres_bind eq).
    - unfold aerosol_forcing. eapply rres_bind; [apply gases_get, H|]. intros g g' G. rewrite (sg_alpha _ _ _ G). apply rres_same.
    - intros q ? <-. split; [reflexivity|exact H]. }
  pose proof (gases_opt _ _ t (ss_gas _ _ H)) as G. destruct (dget (s_gas st) t) as [g|] eqn:Dg, (dget (s_gas st') t) as [g'|] eqn:Dg'; try contradiction.
  - rewrite (sg_alpha _ _ _ G). destruct (negb (neqb (g_alpha g') _)).
    { cbn [key rbind]. rewrite !(u_conc_get st st' _ _ H). do 2 (eapply (rres_bind eq); [apply rres_same|]; intros ? ? <-). rewrite (sg_alpha _ _ _ G), (sg_sarf _ _ _ G).
      split; [reflexivity|exact H]. }
    destruct (String.eqb t "TROP_O3"); [|destruct (String.eqb t "STRAT_H2O")].
    + eapply (rres_bind u2).
      * unfold tropospheric_ozone, trop_o3_conc. rewrite !(u_conc_get st st' _ _ H). eapply (rres_bind eq); [apply rres_same|]. intros c ? <-.
        eapply rres_bind; [apply u_conc_set; exact H|]. intros s s' B. rewrite !(u_conc_get s s' _ _ B). do 2 (eapply (rres_bind eq); [apply rres_same|]; intros ? ? <-). split; [reflexivity|exact B].
      * intros x x' [X1 X2]. rewrite (u_sarf st st' _ H), X1. eapply (rres_bind eq); [apply rres_same|]. intros ? ? <-. split; [reflexivity|exact X2].
    + rewrite (u_forc_get st st' _ _ H), (u_sarf st st' _ H). do 2 (eapply (rres_bind eq); [apply rres_same|]; intros ? ? <-). split; [reflexivity|exact H].
    + split; [reflexivity|exact H].
  - destruct (String.eqb t "TROP_O3"); [|destruct (String.eqb t "STRAT_H2O")].
    + eapply (rres_bind u2).
      * unfold tropospheric_ozone, trop_o3_conc. rewrite !(u_conc_get st st' _ _ H). eapply (rres_bind eq); [apply rres_same|]. intros c ? <-.
        eapply rres_bind; [apply u_conc_set; exact H|]. intros s s' B. rewrite !(u_conc_get s s' _ _ B). do 2 (eapply (rres_bind eq); [apply rres_same|]; intros ? ? <-). split; [reflexivity|exact B].
      * intros x x' [X1 X2]. rewrite (u_sarf st st' _ H), X1. eapply (rres_bind eq); [apply rres_same|]. intros ? ? <-. split; [reflexivity|exact X2].
    + rewrite (u_forc_get st st' _ _ H), (u_sarf st st' _ H). do 2 (eapply (rres_bind eq); [apply rres_same|]; intros ? ? <-). split; [reflexivity|exact H].
    + split; [reflexivity|exact H].
Qed.
Record ur (a b : run4 A) : Prop := { ur_tot : r_tot a = r_tot b; ur_nh : r_nh a = r_nh b; ur_sh : r_sh a = r_sh b; ur_aero : r_aero a = r_aero b; ur_st : same_st (r_st a) (r_st b) }.
Lemma u_turn y luc a a' t : rres ur a a' -> rres ur (tracer_turn p conc emis y luc a t) (tracer_turn p conc emis y luc a' t).
Proof.
  intros R. unfold tracer_turn. eapply rres_bind; [exact R|]. intros x x' [E1 E2 E3 E4 E5]. destruct (smem t ["CO2"; "N2O"; "CH4"]); [constructor; assumption|].
  eapply rres_bind; [apply u_component; exact E5|]. intros [q s] [q' s'] [Q B]. cbn [fst snd] in *. subst q'. cbv zeta.
  eapply rres_bind; [apply u_forc_set; exact B|]. intros z z' W. rewrite E1, E2, E3, E4. constructor; cbn; reflexivity || exact W.
Qed.
Lemma u_pert y a a' row : rres ur a a' -> rres ur (pert_turn p y a row) (pert_turn p y a' row).
Proof.
  intros R. unfold pert_turn. eapply rres_bind; [exact R|]. intros x x' [E1 E2 E3 E4 E5]. destruct row as [[z t] v]. rewrite (ss_forc _ _ E5).
  destruct (dmem (s_forc (r_st x')) t); [|constructor; assumption]. rewrite (u_forc_get _ _ t y E5). eapply (rres_bind eq); [apply rres_same|]. intros old ? <-.
  eapply rres_bind; [apply u_forc_set; exact E5|]. intros s s' W. rewrite E1, E2, E3, E4. constructor; cbn; reflexivity || exact W.
Qed.
Lemma u_conc2forc y luc sun st st' : same_st st st' -> rres u2 (conc2forc p conc emis erf pert y luc sun st) (conc2forc p conc emis erf pert y luc sun st').
Proof.
  intros H. unfold conc2forc. eapply rres_bind; [apply u_three; exact H|]. intros [[[tot nh] sh] s] [x s'] [Q B]. cbn [fst snd] in Q, B. subst x.
  rewrite (ss_forc _ _ B). eapply rres_bind; [apply rres_fold; [intros a a' t; apply u_turn|constructor; cbn; reflexivity || exact B]|]. intros a a' [E1 E2 E3 E4 E5].
  eapply (rres_bind eq); [apply rres_same|]. intros pre ? <-. cbv zeta. rewrite E1, E2, E3, E4.
  eapply (rres_bind ur).
  { destruct pert as [pt|]; [|constructor; cbn; reflexivity || exact E5]. unfold add_forcing_pert. apply rres_fold; [intros b b' t; apply u_pert|constructor; cbn; reflexivity || exact E5]. }
  clear a a' E1 E2 E3 E4 E5. intros a a' [E1 E2 E3 E4 E5]. eapply (rres_bind ur).
  { destruct (just_one p) as [j|]; [|constructor; assumption]. rewrite (u_forc_get _ _ j y E5). eapply (rres_bind eq); [apply rres_same|]. intros t ? <-. constructor; cbn; reflexivity || assumption. }
  clear a a' E1 E2 E3 E4 E5. intros a a' [E1 E2 E3 E4 E5]. rewrite E1, E2, E3, E4. eapply rres_bind; [apply u_forc_set; exact E5|]. intros z z' W.
  unfold abs_total. rewrite (ss_forc _ _ W). eapply (rres_bind eq); [apply rres_same|]. intros t ? <-. split; [reflexivity|exact W].
Qed.
End Gas.
