(** * P_Needs: years and columns that a completed run has read (C105) *)
From Coq Require Import Lia.
From Verif Require Import PyBase PyBaseFacts Num M_Gas M_Forcing M_Carbon M_Driver M_Results M_BoxRun Spec_Driver P_Gas3 P_Coupled P_Coupled2 P_Coupled5.

Section Kind.
Context {A : Type} {N : Num A}.
Definition kind (st st' : hst A) : Prop := dkeys (s_conc st') = dkeys (s_conc st) /\
  forall k g, dget (s_gas st) k = Some g -> exists g', dget (s_gas st') k = Some g' /\ g_unit g' = g_unit g /\ g_alpha g' = g_alpha g.
Lemma kind_refl st : kind st st. Proof. split; [reflexivity|]. eauto. Qed.
Lemma kind_trans a b c : kind a b -> kind b c -> kind a c.
Proof.
  intros [K1 G1] [K2 G2]. split; [congruence|]. intros k g E. destruct (G1 k g E) as (g1 & E1 & U1 & A1). destruct (G2 k g1 E1) as (g2 & E2 & U2 & A2).
  exists g2. split; [exact E2|]. split; congruence.
Qed.
Lemma kind_conc_set st t y v st' : conc_set st t y v = Ok st' -> kind st st'.
Proof. intros H. destruct (conc_set_rest _ _ _ _ _ H) as (G & _ & K). split; [exact K|]. intros k g E. rewrite G. eauto. Qed.
Lemma kind_fold {B S} (f : result S -> B -> result S) (pr : S -> hst A) : (forall a x b, f (Ok a) x = Ok b -> kind (pr a) (pr b)) -> (forall e x, f (Err e) x = Err e) ->
  forall l a b, fold_left f l (Ok a) = Ok b -> kind (pr a) (pr b).
Proof.
  intros H HE. induction l as [|x l IH]; intros a b E; cbn [fold_left] in E; [injection E as <-; apply kind_refl|].
  destruct (f (Ok a) x) as [a1|] eqn:F; [|rewrite fold_err in E by (intros; apply HE); discriminate]. eapply kind_trans; [eapply H; exact F | eapply IH; exact E].
Qed.

Variables (S Fb : Type) (co2 : S -> Z -> A -> Fb -> S * A) (p : hpam A) (conc_in emis n4 n2 : frame A).
Lemma kind_fill y avoid st st' : fill_one_row conc_in y avoid st = Ok st' -> kind st st'.
Proof.
  unfold fill_one_row. generalize (dkeys (s_conc st)). intros l. revert st st'.
  apply (kind_fold (fun acc t => do s <- acc; if smem t avoid then Ok s else if dmem (fr_cols conc_in) t then do v <- fr_get conc_in t y; conc_set s t y v else conc_set s t y #0)%num (fun s => s));
    [|reflexivity].
  intros a x b. cbn [rbind]. destruct (smem x avoid); [intros E; injection E as <-; apply kind_refl|]. destruct (dmem _ x); [destruct (fr_get conc_in x y); cbn [rbind]; [|discriminate]|]; apply kind_conc_set.
Qed.
Lemma kind_co2 cc y fb st cc' st' : co2_year S Fb co2 emis cc y fb st = Ok (cc', st') -> kind st st'.
Proof.
  unfold co2_year. destruct (co2_emission emis st y); cbn [rbind]; [|discriminate].
  destruct (conc_set st "CO2" y _) as [s1|] eqn:E; cbn [rbind]; [|discriminate]. intros H; inversion H; subst. eapply kind_conc_set; eauto.
Qed.
(** one turn, with what methane reads *)
Lemma turn_parts y fb cc st t cc' st' : emi2conc_tracer S Fb co2 p conc_in emis n4 n2 y fb (Ok (cc, st)) t = Ok (cc', st') ->
  kind st st' /\ (t = "CH4" -> forall g, dget (s_gas st) "CH4" = Some g -> g_unit g <> "-" -> lifetime_mode p = "TAR" ->
    forall k, In k ["NOx"; "CO"; "NMVOC"] -> exists v, fr_get emis k 2000%Z = Ok v).
Proof.
  unfold emi2conc_tracer. cbn [rbind]. unfold key at 1. destruct (dget (s_gas st) t) as [g|] eqn:EG; cbn [rbind]; [|discriminate].
  destruct (String.eqb_spec (g_unit g) "-") as [U|U]; [intros H; inversion H; subst; split; [apply kind_refl|]; intros -> g' E NU; congruence|].
  destruct (String.eqb_spec t "CO2") as [->|NC]; [intros H; split; [exact (kind_co2 _ _ _ _ _ _ H)|discriminate]|].
  match goal with |- (do _ <- ?e; _) = _ -> _ => destruct e as [prev|]; cbn [rbind]; [|discriminate] end.
  match goal with |- (do _ <- ?e; _) = _ -> _ => destruct e as [[g' q']|] eqn:L; cbn [rbind]; [|discriminate] end.
  destruct (fr_get emis t y); cbn [rbind]; [|discriminate].
  match goal with |- (do _ <- ?e; _) = _ -> _ => destruct e as [s1|] eqn:E; cbn [rbind]; [|discriminate] end.
  intros H; inversion H; subst. split.
  - eapply kind_trans; [|eapply kind_conc_set; exact E]. split; [reflexivity|]. intros k g0 K. cbn [s_gas set_gas]. rewrite dget_dset.
    destruct (String.eqb_spec t k) as [->|]; [|eauto]. rewrite EG in K. injection K as <-. exists g'. split; [reflexivity|].
    revert L. destruct (String.eqb k "CH4"); [|destruct (String.eqb k "N2O")].
    + destruct (fr_get n4 "CH4" y); cbn [rbind]; [|discriminate]. destruct (methane_lifetime _ _ _ _ _ _); cbn [rbind]; [|discriminate]. intros X; injection X as <- _. split; reflexivity.
    + destruct (fr_get n2 "N2O" y); cbn [rbind]; [|discriminate]. intros X; injection X as <- _. split; reflexivity.
    + intros X; injection X as <- _. split; reflexivity.
  - intros -> _ _ _ M. rewrite String.eqb_refl in L. destruct (fr_get n4 "CH4" y); cbn [rbind] in L; [|discriminate].
    destruct (methane_lifetime p emis g _ prev y) eqn:ML in L; [|discriminate]. unfold methane_lifetime in ML. rewrite M, String.eqb_refl in ML.
    destruct (fr_get emis "NOx" y); cbn [rbind] in ML; [|discriminate]. destruct (fr_get emis "NOx" 2000) as [w1|] eqn:E1; cbn [rbind] in ML; [|discriminate].
    destruct (fr_get emis "CO" y); cbn [rbind] in ML; [|discriminate]. destruct (fr_get emis "CO" 2000) as [w2|] eqn:E2; cbn [rbind] in ML; [|discriminate].
    destruct (fr_get emis "NMVOC" y); cbn [rbind] in ML; [|discriminate]. destruct (fr_get emis "NMVOC" 2000) as [w3|] eqn:E3; cbn [rbind] in ML; [|discriminate].
    intros k [<-|[<-|[<-|[]]]]; eauto.
Qed.
Lemma kind_turns y fb l : forall a b, fold_left (emi2conc_tracer S Fb co2 p conc_in emis n4 n2 y fb) l (Ok a) = Ok b -> kind (snd a) (snd b).
Proof. apply kind_fold; [|reflexivity]. intros [cc st] t [cc' st'] E. exact (proj1 (turn_parts _ _ _ _ _ _ _ E)). Qed.
Lemma kind_emi2conc y fb cc st cc' st' : emi2conc S Fb co2 p conc_in emis n4 n2 y fb cc st = Ok (cc', st') -> kind st st'.
Proof.
  unfold emi2conc. destruct (conc_run p).
  { destruct (fill_one_row conc_in y [] st) as [s1|] eqn:E; cbn [rbind]; [|discriminate]. intros H; inversion H; subst. eapply kind_fill; eauto. }
  destruct (y <? emstart p)%Z.
  { destruct (co2_year _ _ _ _ _ _ _ _) as [[c1 s1]|] eqn:E; cbn [rbind]; [|discriminate]. cbn [fst snd].
    destruct (fill_one_row conc_in y ["CO2"] s1) as [s2|] eqn:E2; cbn [rbind]; [|discriminate]. intros H; inversion H; subst.
    eapply kind_trans; [eapply kind_co2; eauto|eapply kind_fill; eauto]. }
  intros H. apply kind_turns in H. cbn [snd] in H. eapply kind_trans; [|exact H]. split; [cbn [add_row_of_zeros set_conc s_conc]; unfold dkeys; rewrite map_map; reflexivity|]. cbn. eauto.
Qed.
(** methane in a year computed from emissions *)
Lemma emission_year y fb cc st r g : emi2conc S Fb co2 p conc_in emis n4 n2 y fb cc st = Ok r -> conc_run p = false -> (emstart p <= y)%Z -> lifetime_mode p = "TAR" ->
  In "CH4" (dkeys (s_conc st)) -> dget (s_gas st) "CH4" = Some g -> g_unit g <> "-" ->
  forall k, In k ["NOx"; "CO"; "NMVOC"] -> exists v, fr_get emis k 2000%Z = Ok v.
Proof.
  unfold emi2conc. intros H CR Y M I G U. rewrite CR in H. destruct (Z.ltb_spec y (emstart p)); [lia|].
  apply in_split in I as (l1 & l2 & I). rewrite I, fold_left_app in H.
  destruct (fold_left _ l1 _) as [[c1 s1]|] eqn:F; [|rewrite fold_err in H by reflexivity; discriminate]. cbn [fold_left] in H.
  destruct (emi2conc_tracer _ _ _ _ _ _ _ _ _ _ _ _) as [[c2 s2]|] eqn:E in H; [|rewrite fold_err in H by reflexivity; discriminate].
  apply kind_turns in F. cbn [snd] in F. destruct F as [_ F]. destruct (F "CH4" g G) as (g1 & G1 & U1 & _).
  apply (proj2 (turn_parts _ _ _ _ _ _ _ E) eq_refl g1 G1); [congruence | exact M].
Qed.
End Kind.

Section Ozone.
Context {A : Type} {N : Num A}.
Variables (p : hpam A) (conc_in emis erf : frame A) (pert : option (ptable A)).
Lemma kind_conc2forc y luc sun st q st' : conc2forc p conc_in emis erf pert y luc sun st = Ok (q, st') -> kind st st'.
Proof. intros H. apply sg_conc2forc in H. destruct H as (G & K & _). split; [exact K|]. intros k g E. rewrite G. eauto. Qed.
Lemma three_keys y st tot nh sh st' : forc_three_main p y st = Ok (tot, nh, sh, st') -> dkeys (s_forc st') = dkeys (s_forc st) /\ In "CH4" (dkeys (s_conc st)).
Proof.
  unfold forc_three_main. intros H.
  do 4 (match type of H with rbind ?x _ = Ok _ => destruct x; cbn [rbind] in H; [|discriminate H] end).
  destruct (conc_get st "CH4" (nystart p)) eqn:C4; cbn [rbind] in H; [|discriminate H].
  do 4 (match type of H with rbind ?x _ = Ok _ => destruct x; cbn [rbind] in H; [|discriminate H] end). cbv zeta in H.
  assert (FS : forall s t v s', forc_set p s t y v = Ok s' -> dkeys (s_forc s') = dkeys (s_forc s)).
  { intros s t v s' E. exact (proj1 (proj2 (reach_past p y _ _ (r_forc p y _ _ _ _ E)))). }
  destruct (forc_set p st "CO2" y _) as [s1|] eqn:E1 in H; cbn [rbind] in H; [|discriminate H]. destruct (forc_set p s1 "CH4" y _) as [s2|] eqn:E2 in H; cbn [rbind] in H; [|discriminate H]. destruct (forc_set p s2 "N2O" y _) as [s3|] eqn:E3 in H; cbn [rbind] in H; [|discriminate H]. inversion H; subst. apply FS in E1, E2, E3. split; [congruence|].
  unfold conc_get in C4. destruct (dget (s_conc st) "CH4") eqn:D; [|discriminate]. apply dget_In_keys, dmem_true. eauto.
Qed.
(** what tropospheric ozone reads of the reference year *)
Lemma ozone_reads y luc sun st r g : conc2forc p conc_in emis erf pert y luc sun st = Ok r -> In "TROP_O3" (dkeys (s_forc st)) ->
  dget (s_gas st) "TROP_O3" = Some g -> neqb (g_alpha g) #0%num = true ->
  (exists v, fr_get conc_in "CH4" (ref_yr p) = Ok v) /\ forall k, In k ["NOx"; "CO"; "NMVOC"] -> exists v, fr_get emis k (ref_yr p) = Ok v.
Proof.
  unfold conc2forc. intros H I G Z.
  destruct (forc_three_main p y st) as [[[[tot nh] sh] s1]|] eqn:E1; cbn [rbind] in H; [|discriminate].
  destruct (fold_left _ (dkeys (s_forc s1)) _) as [a|] eqn:E2; [clear H|discriminate].
  destruct (three_keys _ _ _ _ _ _ E1) as [K _]. rewrite <- K in I. apply sg_three in E1. destruct E1 as (G1 & _ & _). rewrite <- G1 in G.
  apply in_split in I as (l1 & l2 & I). rewrite I, fold_left_app in E2.
  destruct (fold_left _ l1 _) as [a1|] eqn:F; [|rewrite fold_err in E2 by reflexivity; discriminate]. cbn [fold_left] in E2.
  destruct (tracer_turn p conc_in emis y luc (Ok a1) "TROP_O3") as [a2|] eqn:E in E2; [clear E2|rewrite fold_err in E2 by reflexivity; discriminate].
  apply sg_turns in F. cbn [r_st] in F. destruct F as (G2 & _ & _). rewrite <- G2 in G. unfold tracer_turn in E. cbn [rbind] in E.
  change (smem "TROP_O3" ["CO2"; "N2O"; "CH4"]) with false in E. cbv iota in E.
  destruct (component p conc_in emis y luc "TROP_O3" (r_st a1)) as [q|] eqn:C; [clear E|discriminate]. unfold component in C.
  change (String.eqb "TROP_O3" "LANDUSE") with false in C. change (is_aerosol "TROP_O3") with false in C. cbv iota in C. rewrite G, Z in C. cbn [negb] in C. rewrite String.eqb_refl in C.
  unfold tropospheric_ozone, trop_o3_conc in C.
  destruct (conc_get (r_st a1) "CH4" y); cbn [rbind] in C; [|discriminate]. destruct (fr_get conc_in "CH4" (ref_yr p)) as [v0|]; cbn [rbind] in C; [|discriminate].
  destruct (fr_get emis "NOx" y); cbn [rbind] in C; [|discriminate]. destruct (fr_get emis "NOx" (ref_yr p)) as [v1|] eqn:V1; cbn [rbind] in C; [|discriminate].
  destruct (fr_get emis "CO" y); cbn [rbind] in C; [|discriminate]. destruct (fr_get emis "CO" (ref_yr p)) as [v2|] eqn:V2; cbn [rbind] in C; [|discriminate].
  destruct (fr_get emis "NMVOC" y); cbn [rbind] in C; [|discriminate]. destruct (fr_get emis "NMVOC" (ref_yr p)) as [v3|] eqn:V3; cbn [rbind] in C; [|discriminate].
  split; [eauto|]. intros k [<-|[<-|[<-|[]]]]; eauto.
Qed.
End Ozone.

Section Run.
Context {A : Type} {N : Num A} {T : Type} (th : thermal A T).
Variables (nan : A) (CC : Type) (year : CC -> nat -> A -> A -> CC * A) (data : CC -> hst A -> dict (list A) -> result (CC * frame A)) (sc : scenario A).
Notation p := (c_p sc).
Variables (c : inst A) (gt : dict (gas A)) (t0 : T) (cc0 : CC).
Notation E2C := (any_emi2conc CC year sc).
Notation C2F := (any_conc2forc CC sc).
Notation OUT := (any_run nan CC year data sc th c gt t0 cc0 true true []).
Lemma run_years_of_run : o_exn OUT = None -> d_rf c = None -> exists s l, htrace c E2C C2F 0 (cc0, reset_arrays p gt (c_erf sc)) l s /\ List.length l = d_years c.
Proof.
  unfold any_run, run. destruct (run_years _ _ _ _ _ _ _ _ _ _) as [s [e|]] eqn:RY; [discriminate|]. intros _ RF.
  unfold run_years, year_list in RY. rewrite <- (Z.add_0_r (d_start c)) in RY at 1.
  destruct (years_trace th c _ _ _ _ RF _ 0%nat _ RY) as (tr & l & _ & _ & HT & L & _). exists (l_h s), l. split; [exact HT | exact L].
Qed.
Lemma trace_2000 n h l h' g : htrace c E2C C2F n h l h' -> conc_run p = false -> lifetime_mode p = "TAR" ->
  In "CH4" (dkeys (s_conc (snd h))) -> dget (s_gas (snd h)) "CH4" = Some g -> g_unit g <> "-" ->
  (0 < List.length l)%nat -> (emstart p <= d_start c + Z.of_nat (n + List.length l) - 1)%Z ->
  forall k, In k ["NOx"; "CO"; "NMVOC"] -> exists v, fr_get (c_emis sc) k 2000%Z = Ok v.
Proof.
  intros HT CR LM. revert g. induction HT as [n h|n h fb luc sun q h1 h2 l h3 X1 X2 X3 X4 HT IH]; intros g I G U L Y; [cbn in L; lia|].
  destruct l as [|x l].
  - cbn [List.length] in Y. unfold any_emi2conc in X1. eapply emission_year; [exact X1|exact CR|lia|exact LM|exact I|exact G|exact U].
  - unfold any_emi2conc in X1. destruct h1 as [cc1 st1]. apply kind_emi2conc in X1.
    unfold any_conc2forc in X4. cbn [snd] in X4. destruct (conc2forc _ _ _ _ _ _ _ _ _) as [[q1 st2]|] eqn:C in X4; cbn [rbind fst snd] in X4; [|discriminate].
    injection X4 as <- _. apply kind_conc2forc in C. destruct (kind_trans _ _ _ X1 C) as [K Q]. destruct (Q _ _ G) as (g' & G' & U' & _).
    apply (IH g'); cbn [snd List.length] in *; [rewrite K; exact I|exact G'|congruence|lia|lia].
Qed.
Lemma needs g : o_exn OUT = None -> d_rf c = None -> (0 < d_years c)%nat -> dget gt "TROP_O3" = Some g -> g_unit g = "-" -> neqb (g_alpha g) #0%num = true ->
  dmem (fr_cols (c_erf sc)) "TROP_O3" = false ->
  (exists v, fr_get (c_conc sc) "CH4" (ref_yr p) = Ok v) /\ (forall k, In k ["NOx"; "CO"; "NMVOC"] -> exists v, fr_get (c_emis sc) k (ref_yr p) = Ok v) /\
  (conc_run p = false -> lifetime_mode p = "TAR" -> (emstart p <= d_start c + Z.of_nat (d_years c) - 1)%Z ->
     forall k, In k ["NOx"; "CO"; "NMVOC"] -> exists v, fr_get (c_emis sc) k 2000%Z = Ok v).
Proof.
  intros X RF L G U Z M. destruct (run_years_of_run X RF) as (s & l & HT & LL).
  assert (FIRST : exists fb luc sun q h1 h2 l', E2C (cc0, reset_arrays p gt (c_erf sc)) (d_start c + 0)%Z fb = Ok h1 /\ C2F h1 (d_start c + 0)%Z luc sun = Ok (h2, q) /\ l = (fb, luc, sun, q) :: l').
  { inversion HT; subst; [cbn in LL; lia|]. do 7 eexists. split; [eassumption|]. split; [eassumption|reflexivity]. }
  destruct FIRST as (fb & luc & sun & q & [cc1 st1] & h2 & l' & X1 & X4 & _).
  unfold any_emi2conc in X1. cbn [fst snd] in X1. pose proof (kind_emi2conc _ _ _ _ _ _ _ _ _ _ _ _ _ _ X1) as [K Q]. pose proof (emi2conc_keeps _ _ _ _ _ _ _ _ _ _ _ _ _ _ X1) as [F _].
  unfold any_conc2forc in X4. cbn [fst snd] in X4. destruct (conc2forc _ _ _ _ _ _ _ _ _) as [[q1 st2]|] eqn:C in X4; cbn [rbind fst snd] in X4; [|discriminate].
  assert (GT : In "TROP_O3" (gases_spicy gt (c_erf sc))).
  { unfold gases_spicy. apply filter_In. split; [apply dget_In_keys, dmem_true; eauto|]. rewrite M. reflexivity. }
  destruct (Q "TROP_O3" g G) as (g1 & G1 & _ & A1).
  destruct (ozone_reads _ _ _ _ _ _ _ _ _ _ g1 C) as [R1 R2]; [|exact G1|rewrite A1; exact Z|].
  { rewrite F. cbn [reset_arrays s_forc]. rewrite dkeys_dset.
    assert (In "TROP_O3" (dkeys (map (fun k : string => (k, tab (List.length (years_of p)) (fun _ => #0%num))) (filter (fun k => negb (String.eqb k "CO2.1")) (gases_spicy gt (c_erf sc)))))) as I.
    { unfold dkeys. rewrite map_map. cbn [fst]. rewrite map_id. apply filter_In. split; [exact GT|reflexivity]. }
    match goal with |- In _ (if ?b then _ else _) => destruct b end; [exact I|]. apply in_or_app. left. exact I. }
  split; [exact R1|]. split; [exact R2|]. intros CR LM Y.
  assert (I4 : In "CH4" (dkeys (s_conc (reset_arrays p gt (c_erf sc))))).
  { rewrite <- K. unfold conc2forc in C. destruct (forc_three_main p _ st1) as [[[[tot nh] sh] s1]|] eqn:E1 in C; [|discriminate]. exact (proj2 (three_keys _ _ _ _ _ _ _ E1)). }
  assert (G4 : exists g4, dget gt "CH4" = Some g4 /\ g_unit g4 <> "-").
  { cbn [reset_arrays s_conc] in I4. unfold dkeys in I4. rewrite map_map in I4. cbn [fst] in I4. rewrite map_id in I4. apply filter_In in I4. destruct I4 as [_ I4]. cbn in I4.
    destruct (dget gt "CH4") as [g4|]; [|discriminate]. exists g4. split; [reflexivity|]. intros E. rewrite E in I4. discriminate. }
  destruct G4 as (g4 & G4 & U4). eapply (trace_2000 0 _ l s g4 HT CR LM); cbn [snd]; [exact I4|exact G4|exact U4|lia|cbn [plus]; lia].
Qed.
End Run.
