(** * P_Climate: two runs with the same emissions and any climate (C95) *)
From Coq Require Import Lia.
From Verif Require Import PyBase PyBaseFacts Num M_Gas M_TwoLayer M_Forcing M_Carbon M_Driver M_Results M_BoxRun Spec_Gas Spec_Driver Spec_Reader Spec_Results Spec_Coupled Spec_Climate
  P_Results P_Results2 P_Driver P_Driver2 P_Driver3 P_Driver4 P_Coupled P_AnyCarbon.

(** ** Both completed *)
Definition both {B C} (E : B -> C -> Prop) (a : result B) (b : result C) : Prop := match a, b with Ok x, Ok y => E x y | _, _ => True end.
Lemma both_ok {B C} (E : B -> C -> Prop) x y : E x y -> both E (Ok x) (Ok y). Proof. intros H. exact H. Qed.
Lemma both_bind {B B' C C'} (E : B -> B' -> Prop) (F : C -> C' -> Prop) a a' f f' : both E a a' -> (forall x x', E x x' -> both F (f x) (f' x')) ->
  both F (rbind a f) (rbind a' f').
Proof. intros H K. destruct a as [x|], a' as [x'|]; cbn in *; try exact I; [apply K; exact H|]. destruct (f x); exact I. Qed.
Lemma both_skip {B B' C C'} (F : C -> C' -> Prop) (a : result B) (a' : result B') f f' : (forall x x', both F (f x) (f' x')) -> both F (rbind a f) (rbind a' f').
Proof. intros K. apply (both_bind (fun _ _ => True)); [destruct a, a'; exact I|intros x x' _; apply K]. Qed.
Lemma both_same {B} (a : result B) : both eq a a. Proof. destruct a; [reflexivity|exact I]. Qed.
Lemma both_eq {B} (a b : result B) : a = b -> both eq a b. Proof. intros ->. apply both_same. Qed.
Lemma both_fold {B B' X} (E : B -> B' -> Prop) (f : result B -> X -> result B) (f' : result B' -> X -> result B') :
  (forall a a' x, both E a a' -> both E (f a x) (f' a' x)) -> forall l a a', both E a a' -> both E (fold_left f l a) (fold_left f' l a').
Proof. intros H l. induction l as [|x l IH]; intros a a' R; [exact R|]. cbn [fold_left]. apply IH, H, R. Qed.

(** ** Dictionaries that agree on the keys of a kind *)
Section Like.
Context {V : Type} (U : string -> Prop).
Definition alike (d d' : dict V) : Prop := Forall2 (fun kv kv' => fst kv = fst kv' /\ (U (fst kv) -> snd kv = snd kv')) d d'.
Lemma alike_refl d : alike d d. Proof. induction d; constructor; auto. Qed.
Lemma alike_keys d d' : alike d d' -> dkeys d = dkeys d'.
Proof. unfold dkeys. induction 1 as [|? ? ? ? [E _] _ IH]; [reflexivity|]. cbn. congruence. Qed.
Lemma alike_get d d' k : alike d d' -> U k -> dget d k = dget d' k.
Proof.
  intros H Uk. induction H as [|[a v] [b w] d d' [E Q] _ IH]; [reflexivity|]. cbn in *. subst b.
  destruct (String.eqb a k) eqn:K; [apply String.eqb_eq in K; subst a; rewrite (Q Uk); reflexivity|exact IH].
Qed.
Lemma alike_set d d' k v v' : alike d d' -> (U k -> v = v') -> alike (dset d k v) (dset d' k v').
Proof.
  intros H Q. induction H as [|[a x] [b w] d d' [E P] R IH]; cbn [dset]; [constructor; [split; [reflexivity|exact Q]|constructor]|].
  cbn in E. subst b. destruct (String.eqb a k) eqn:K.
  - constructor; [split; [reflexivity|]|exact R]. cbn. apply String.eqb_eq in K. subst a. exact Q.
  - constructor; [split; [reflexivity|exact P]|exact IH].
Qed.
Lemma alike_mem d d' k : alike d d' -> dmem d k = dmem d' k.
Proof.
  intros H. unfold dmem. induction H as [|[a v] [b w] d d' [E Q] _ IH]; [reflexivity|]. cbn in *. subst b. destruct (String.eqb a k); [reflexivity|exact IH].
Qed.
Lemma alike_app d d' e e' : alike d d' -> alike e e' -> alike (d ++ e) (d' ++ e').
Proof. apply Forall2_app. Qed.
Lemma alike_filter (g : string -> bool) d d' : alike d d' -> alike (filter (fun kv => g (fst kv)) d) (filter (fun kv => g (fst kv)) d').
Proof.
  induction 1 as [|[a v] [b w] d d' [E Q] R IH]; [constructor|]. cbn in *. subst b. destruct (g a); [constructor; [split; auto|exact IH]|exact IH].
Qed.
End Like.

Section States.
Context {A : Type} {N : Num A}.
Variables (p p' : hpam A) (c c' : inst A) (conc emis nat4 nat2 erf : frame A) (pert : option (ptable A)).
Hypothesis SM : same_scheme p p'.
Let U := unaffected p p' c c'.
Definition blind (st st' : hst A) : Prop :=
  s_gas st = s_gas st' /\ alike (unmoved p) (s_conc st) (s_conc st') /\ alike U (s_forc st) (s_forc st').

Lemma b_conc_get st st' t y : blind st st' -> unmoved p t -> conc_get st t y = conc_get st' t y.
Proof. intros (_ & H & _) T. unfold conc_get. rewrite (alike_get _ _ _ t H T). reflexivity. Qed.
Lemma b_conc_set st st' t y v v' : blind st st' -> (unmoved p t -> v = v') -> both blind (conc_set st t y v) (conc_set st' t y v').
Proof.
  intros (G & H & F) Q. unfold conc_set. destruct (dget (s_conc st) t) as [d|] eqn:D; [|exact I]. destruct (dget (s_conc st') t) as [d'|] eqn:D'; cbn [key rbind]; [|exact I].
  split; [exact G|]. split; [|exact F]. cbn [s_conc set_conc]. apply alike_set; [exact H|]. intros T. rewrite (alike_get _ _ _ t H T) in D. rewrite D in D'. injection D' as ->.
  rewrite (Q T). reflexivity.
Qed.
Lemma b_forc_get st st' t y : blind st st' -> U t -> forc_get p st t y = forc_get p' st' t y.
Proof. intros (_ & _ & H) T. unfold forc_get, forc_ix. rewrite (alike_get _ _ _ t H T), (sm_start _ _ SM). reflexivity. Qed.
Lemma b_forc_set st st' t y q q' : blind st st' -> (U t -> q = q') -> both blind (forc_set p st t y q) (forc_set p' st' t y q').
Proof.
  intros (G & H & F) Q. unfold forc_set, forc_ix. rewrite (sm_start _ _ SM). destruct (dget (s_forc st) t) as [v|] eqn:D; [|exact I].
  destruct (dget (s_forc st') t) as [v'|] eqn:D'; cbn [key rbind]; [|destruct (Nat.ltb _ _); exact I].
  destruct (Nat.ltb _ (List.length v)); [|exact I]. destruct (Nat.ltb _ (List.length v')); [|exact I].
  split; [exact G|]. split; [exact H|]. cbn [s_forc set_forc]. apply alike_set; [exact F|]. intros T. rewrite (alike_get _ _ _ t F T) in D. rewrite D in D'. injection D' as ->.
  rewrite (Q T). reflexivity.
Qed.
Lemma b_fill y avoid st st' : blind st st' -> both blind (fill_one_row conc y avoid st) (fill_one_row conc y avoid st').
Proof.
  intros H. unfold fill_one_row. rewrite (alike_keys _ _ _ (proj1 (proj2 H))). apply both_fold; [|exact H].
  intros a a' t R. eapply both_bind; [exact R|]. intros x x' B. destruct (smem t avoid); [exact B|]. destruct (dmem (fr_cols conc) t); [|apply b_conc_set; auto].
  eapply both_bind; [apply both_same|]. intros v v' ->. apply b_conc_set; auto.
Qed.

Section Carbon.
Variables (S S' Fb Fb' : Type) (co2 : S -> Z -> A -> Fb -> S * A) (co2' : S' -> Z -> A -> Fb' -> S' * A).
Definition bp (a : S * hst A) (b : S' * hst A) : Prop := blind (snd a) (snd b).
Lemma b_co2 y fb fb' cc cc' st st' : conc_run p = false -> blind st st' -> both bp (co2_year S Fb co2 emis cc y fb st) (co2_year S' Fb' co2' emis cc' y fb' st').
Proof.
  intros CR H. unfold co2_year. apply both_skip. intros em em'. cbv zeta. eapply both_bind; [apply b_conc_set; [exact H|intros [T|T]; [congruence|destruct (T eq_refl)]]|].
  intros x x' B. exact B.
Qed.
Lemma b_tracer y fb fb' a a' t : conc_run p = false -> both bp a a' ->
  both bp (emi2conc_tracer S Fb co2 p conc emis nat4 nat2 y fb a t) (emi2conc_tracer S' Fb' co2' p' conc emis nat4 nat2 y fb' a' t).
Proof.
  intros CR R. unfold emi2conc_tracer. eapply both_bind; [exact R|]. intros [cc st] [cc' st'] B. cbn [bp snd] in B. unfold bp in B; cbn [snd] in B. assert (G := proj1 B).
  rewrite <- G. eapply both_bind; [apply both_same|]. intros g g' <-. destruct (String.eqb (g_unit g) "-"); [exact B|].
  destruct (String.eqb t "CO2") eqn:T; [apply b_co2; assumption|]. apply String.eqb_neq in T. assert (UT : unmoved p t) by (right; exact T). rewrite (sm_start _ _ SM).
  eapply both_bind; [destruct (y >? nystart p)%Z; [apply both_eq, b_conc_get; assumption|apply both_same]|]. intros prev prev' <-. cbv zeta.
  eapply (both_bind eq).
  { assert (ML : methane_lifetime p' emis = methane_lifetime p emis) by (unfold methane_lifetime; rewrite (sm_mode _ _ SM); reflexivity). rewrite ML. apply both_same. }
  intros [g1 q1] x <-. eapply both_bind; [apply both_same|]. intros e e' <-.
  eapply both_bind; [apply b_conc_set; [|reflexivity]|].
  - destruct B as (B1 & B2 & B3). split; [cbn; congruence|]. split; assumption.
  - intros u u' W. exact W.
Qed.
Lemma b_emi2conc y fb fb' cc cc' st st' : blind st st' ->
  both bp (emi2conc S Fb co2 p conc emis nat4 nat2 y fb cc st) (emi2conc S' Fb' co2' p' conc emis nat4 nat2 y fb' cc' st').
Proof.
  intros H. unfold emi2conc. rewrite (sm_conc _ _ SM), (sm_em _ _ SM). destruct (conc_run p) eqn:CR.
  { eapply both_bind; [apply b_fill; exact H|]. intros x x' B. exact B. }
  destruct (y <? emstart p)%Z.
  { eapply both_bind; [apply b_co2; assumption|]. intros x x' B. eapply both_bind; [apply b_fill; exact B|]. intros z z' W. exact W. }
  rewrite (alike_keys _ _ _ (proj1 (proj2 H))). apply both_fold; [intros a a' t; apply b_tracer; exact CR|]. unfold bp; cbn [both snd].
  destruct H as (G & C & F). split; [exact G|]. split; [|exact F]. unfold add_row_of_zeros; cbn [s_conc set_conc].
  clear F G. induction C as [|[a v] [b w] d d' [E Q] R IH]; [constructor|]. cbn in *. subst b. constructor; [split; [reflexivity|]|exact IH]. cbn. intros T. rewrite (Q T). reflexivity.
Qed.
End Carbon.

Lemma both_cut {B C} (E : B -> C -> Prop) a b : (forall x y, a = Ok x -> b = Ok y -> E x y) -> both E a b.
Proof. intros H. destruct a, b; cbn; auto. Qed.
Definition b4 (a b : A * A * A * hst A) : Prop := blind (snd a) (snd b).
Lemma U_ch4 : U "CH4".
Proof. split; [discriminate|]. split; [right; intros [H|[H|[]]]; discriminate H|]. split; [reflexivity|intros H; discriminate H]. Qed.
Lemma unm t : t <> "CO2" -> unmoved p t. Proof. intros H. right. exact H. Qed.
Lemma b_three y st st' : blind st st' -> both b4 (forc_three_main p y st) (forc_three_main p' y st').
Proof.
  intros H. assert (G := proj1 H). unfold forc_three_main. rewrite (sm_start _ _ SM).
  assert (CC : forall z, both (fun a b => conc_run p = true -> a = b) (conc_get st "CO2" z) (conc_get st' "CO2" z)).
  { intros z. apply both_cut. intros a b E E' Q. rewrite (b_conc_get st st' "CO2" z H) in E by (left; exact Q). congruence. }
  eapply both_bind; [apply both_eq, b_conc_get; [exact H|apply unm; discriminate]|]. intros n0 ? <-. eapply both_bind; [apply both_eq, b_conc_get; [exact H|apply unm; discriminate]|]. intros n1 ? <-.
  eapply both_bind; [apply CC|]. intros c0 c0' Q0. eapply both_bind; [apply CC|]. intros c1 c1' Q1.
  eapply both_bind; [apply both_eq, b_conc_get; [exact H|apply unm; discriminate]|]. intros m0 ? <-. eapply both_bind; [apply both_eq, b_conc_get; [exact H|apply unm; discriminate]|]. intros m1 ? <-.
  unfold sarf. rewrite <- G. eapply both_bind; [apply both_same|]. intros f1 ? <-. eapply both_bind; [apply both_same|]. intros f2 ? <-. eapply both_bind; [apply both_same|]. intros f3 ? <-.
  cbv zeta. eapply both_bind; [apply b_forc_set; [exact H|]|].
  { intros (_ & [X|X] & _); [rewrite (Q0 X), (Q1 X); reflexivity|destruct X; cbn; tauto]. }
  intros s1 s1' B1. eapply both_bind; [apply b_forc_set; [exact B1|reflexivity]|]. intros s2 s2' B2.
  eapply both_bind; [apply b_forc_set; [exact B2|]|].
  { intros (_ & [X|X] & _); [rewrite (Q0 X), (Q1 X); reflexivity|destruct X; cbn; tauto]. }
  intros s3 s3' B3. exact B3.
Qed.
Definition bq (t : string) (a b : A * hst A) : Prop := (U t -> fst a = fst b) /\ blind (snd a) (snd b).
Lemma sens_ref t : sensitivity p t = sensitivity p' t -> dget (ref_emission_species p) t = dget (ref_emission_species p') t.
Proof.
  unfold sensitivity, ref_emission_species. cbn [dget].
  repeat match goal with |- context[String.eqb ?k t] => destruct (String.eqb k t); [intros E; injection E as ->; reflexivity|] end. intros _. reflexivity.
Qed.
Lemma b_aero st st' y t : blind st st' -> U t -> aerosol_forcing p emis st y t = aerosol_forcing p' emis st' y t.
Proof.
  intros (G & _) (_ & _ & T & _). unfold aerosol_forcing. rewrite <- G, (sm_start _ _ SM), <- (sens_ref t T). reflexivity.
Qed.
Lemma b_ozone st st' y : blind st st' ->
  both (fun a b => (qo3 p = qo3 p' -> fst a = fst b) /\ blind (snd a) (snd b)) (tropospheric_ozone p conc emis y st) (tropospheric_ozone p' conc emis y st').
Proof.
  intros H. unfold tropospheric_ozone. eapply (both_bind eq).
  { unfold trop_o3_conc. rewrite (sm_ref _ _ SM). rewrite (b_conc_get st st' "CH4" y H (unm "CH4" ltac:(discriminate))). apply both_same. }
  intros o ? <-. eapply both_bind; [apply b_conc_set; [exact H|reflexivity]|]. intros s s' B. rewrite (sm_start _ _ SM).
  eapply both_bind; [apply both_eq, b_conc_get; [exact B|apply unm; discriminate]|]. intros v ? <-. eapply both_bind; [apply both_eq, b_conc_get; [exact B|apply unm; discriminate]|]. intros v0 ? <-.
  split; [|exact B]. cbn. intros Q. unfold trop_o3_from. rewrite Q. reflexivity.
Qed.
Lemma b_component y luc luc' t st st' : blind st st' -> t <> "CO2" -> (d_luc c = d_luc c' -> luc = luc') ->
  both (bq t) (component p conc emis y luc t st) (component p' conc emis y luc' t st').
Proof.
  intros H T L. assert (G := proj1 H). apply unm in T. unfold component. destruct (String.eqb t "LANDUSE") eqn:LU.
  { apply String.eqb_eq in LU. split; [|exact H]. cbn. intros (_ & _ & _ & Q). apply L, Q, LU. }
  destruct (is_aerosol t).
  { apply both_cut. intros [q s] [q' s']. destruct (aerosol_forcing p emis st y t) as [a|] eqn:E; [|discriminate]. destruct (aerosol_forcing p' emis st' y t) as [a'|] eqn:E'; [|discriminate].
    cbn [rbind]. intros X X'. injection X as <- <-. injection X' as <- <-. split; [|exact H]. cbn. intros Ut. rewrite (b_aero st st' y t H Ut), E' in E. congruence. }
  rewrite <- G. destruct (match dget (s_gas st) t with Some g => _ | None => false end).
  { eapply both_bind; [apply both_same|]. intros g ? <-. rewrite (sm_start _ _ SM). eapply both_bind; [apply both_eq, b_conc_get; assumption|]. intros x ? <-.
    eapply both_bind; [apply both_eq, b_conc_get; assumption|]. intros x0 ? <-. split; [reflexivity|exact H]. }
  destruct (String.eqb t "TROP_O3") eqn:TO.
  { apply String.eqb_eq in TO. eapply both_bind; [apply b_ozone; exact H|]. intros [o s] [o' s'] [Q B]. cbn [fst snd] in *. unfold sarf. rewrite <- G.
    eapply both_bind; [apply both_same|]. intros f ? <-. split; [|exact B]. cbn. intros (_ & _ & V & _). rewrite Q; [reflexivity|]. subst t. injection V. auto. }
  destruct (String.eqb t "STRAT_H2O") eqn:SW.
  { apply String.eqb_eq in SW. eapply both_bind; [apply both_eq, b_forc_get; [exact H|exact U_ch4]|]. intros m ? <-. unfold sarf. rewrite <- G.
    eapply both_bind; [apply both_same|]. intros f ? <-. split; [|exact H]. cbn. intros (_ & _ & V & _). subst t. injection V as ->. reflexivity. }
  split; [reflexivity|exact H].
Qed.
Definition br (a b : run4 A) : Prop := blind (r_st a) (r_st b).
Lemma b_turn y luc luc' a a' t : (d_luc c = d_luc c' -> luc = luc') -> both br a a' ->
  both br (tracer_turn p conc emis y luc a t) (tracer_turn p' conc emis y luc' a' t).
Proof.
  intros L R. unfold tracer_turn. eapply both_bind; [exact R|]. intros x x' B. destruct (smem t ["CO2"; "N2O"; "CH4"]) eqn:M; [exact B|].
  eapply both_bind; [apply b_component; [exact B|intros ->; discriminate M|exact L]|]. intros [q s] [q' s'] [Q W]. cbv zeta. cbn [fst snd] in *.
  eapply both_bind; [apply b_forc_set; [exact W|exact Q]|]. intros z z' W'. exact W'.
Qed.
Lemma b_pert y a a' row : both br a a' -> both br (pert_turn p y a row) (pert_turn p' y a' row).
Proof.
  intros R. unfold pert_turn. eapply both_bind; [exact R|]. intros x x' B. destruct row as [[yy t] v]. rewrite <- (alike_mem _ _ _ t (proj2 (proj2 B))).
  destruct (dmem (s_forc (r_st x)) t); [|exact B].
  apply both_cut. intros z z'. destruct (forc_get p (r_st x) t y) as [o|] eqn:E; [|discriminate]. destruct (forc_get p' (r_st x') t y) as [o'|] eqn:E'; [|discriminate].
  cbn [rbind]. assert (W : both br (do st <- forc_set p (r_st x) t y (nadd o v); let h := hemispheric t v (r_nh x) (r_sh x) in
     Ok {| r_tot := nadd (r_tot x) v; r_nh := fst h; r_sh := snd h; r_aero := r_aero x; r_st := st |})
     (do st <- forc_set p' (r_st x') t y (nadd o' v); let h := hemispheric t v (r_nh x') (r_sh x') in
     Ok {| r_tot := nadd (r_tot x') v; r_nh := fst h; r_sh := snd h; r_aero := r_aero x'; r_st := st |})).
  { eapply both_bind; [apply b_forc_set; [exact B|]|].
    - intros Ut. rewrite (b_forc_get _ _ t y B Ut), E' in E. congruence.
    - intros u u' W. exact W. }
  intros X X'. cbv zeta in W, X, X'. rewrite X, X' in W. exact W.
Qed.
Lemma b_conc2forc y luc luc' sun sun' st st' : (d_luc c = d_luc c' -> luc = luc') -> blind st st' ->
  both (fun a b => blind (snd a) (snd b)) (conc2forc p conc emis erf pert y luc sun st) (conc2forc p' conc emis erf pert y luc' sun' st').
Proof.
  intros L H. unfold conc2forc. eapply both_bind; [apply b_three; exact H|]. intros [[[t1 n1] h1] s] [[[t1' n1'] h1'] s'] B. unfold b4 in B; cbn [snd] in B.
  rewrite (alike_keys _ _ _ (proj2 (proj2 B))).
  eapply both_bind; [apply both_fold; [intros a a' t; apply b_turn; exact L|exact B]|]. intros a a' B1. apply both_skip. intros pre pre'. cbv zeta.
  eapply (both_bind br).
  { destruct pert as [pt|]; [|exact B1]. unfold add_forcing_pert. apply both_fold; [intros x x' row; apply b_pert|exact B1]. }
  intros x x' B2. eapply (both_bind br).
  { destruct (just_one p) as [j|], (just_one p') as [j'|]; try exact B2.
    - apply both_skip. intros t t'. exact B2.
    - apply both_cut. intros z z'. destruct (forc_get p (r_st x) j y); [|discriminate]. cbn [rbind]. intros X X'. injection X as <-. injection X' as <-. exact B2.
    - apply both_cut. intros z z'. destruct (forc_get p' (r_st x') j' y); [|discriminate]. cbn [rbind]. intros X X'. injection X as <-. injection X' as <-. exact B2. }
  intros z z' B3. eapply both_bind; [apply b_forc_set; [exact B3|intros [X _]; destruct (X eq_refl)]|]. intros s3 s3' B4. apply both_skip. intros q q'. exact B4.
Qed.
End States.
