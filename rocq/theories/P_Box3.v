(** * P_Box3: CO2 and the carbon columns of a run with the box carbon cycle (C93) *)
From Coq Require Import Reals Lra Lia.
From Verif Require Import PyBase PyBaseFacts Num M_Gas M_Forcing M_Carbon M_CarbonBox M_Driver M_Results M_BoxRun M_Reader Spec_Gas Spec_Driver Spec_Reader Spec_Results Spec_Coupled
  P_Results P_AnyCarbon P_Box2.
From Verif Require M_Distro P_Input2 P_CarbonMisc P_Box P_Coupled2 Spec_UDM Spec_Carbon.
From Verif Require Import M_Names Spec_Box.
Open Scope nat_scope.

Section Any.
Context {A : Type} {N : Num A} {T : Type}.
(** the default carbon cycle is a case of [any_run] *)
Lemma any_default nan cp (sc : scenario A) (th : thermal A T) c gt t0 cc0 d carbon r :
  coupled_run nan cp sc th c gt t0 cc0 d carbon r =
  any_run nan (cc_state A) (co2em2conc cp) (carbon_data nan cp (c_p sc) (c_emis sc)) sc th c gt t0 cc0 d carbon r.
Proof. reflexivity. Qed.
Lemma box_years (p : box_pam A) ins : forall s n, any_years (box_state A) (fun s _ em dt => box_year p s em dt) s n ins = box_run p s ins.
Proof.
  induction ins as [|[em dt] ins IH]; intros s n; [reflexivity|]. cbn [any_years box_run]. destruct (box_year p s em dt) as [s1 c1]. rewrite IH. reflexivity.
Qed.
Variables (nan : A) (bp : box_pam A) (sc : scenario A) (th : thermal A T) (c : inst A) (gt : dict (gas A)) (t0 : T).
Notation p := (c_p sc).
Notation RUN := (box_coupled_run nan bp sc th c gt t0).
Lemma c93_co2 carbon r out g : d_rf c = None -> conc_run p = false -> d_start c = nystart p -> d_end c = nyend p ->
  distinct_outputs (t_names th) -> dget (t_names th) "dT_glob" = Some "dtemp" ->
  wf gt -> dget gt "CO2" = Some g -> g_unit g <> "-" -> dmem (fr_cols (c_erf sc)) "CO2" = false ->
  wf (fr_cols (c_pc sc)) -> (forall k, In k (dkeys (fr_cols (c_pc sc))) -> dmem (fr_cols (c_erf sc)) k = true) -> (exists k, In k (dkeys (fr_cols (c_pc sc)))) ->
  ~ In "Year" (dkeys gt ++ dkeys (fr_cols (c_pc sc))) ->
  RUN true carbon r = out -> o_exn out = None ->
  exists temp ins, in_array (o_results out) "dT_glob" temp /\ List.length temp = d_years c /\
    co2_drivers (c_emis sc) g temp (nystart p) (d_years c) ins /\
    in_frame (o_results out) "concentrations" "CO2" (snd (box_run bp box_init ins)) /\
    fst (o_handler out) = fst (box_run bp box_init ins).
Proof.
  intros RF CR DS DE DO DN W G U M WP PE NE NY E X.
  destruct (any_co2 nan _ _ _ sc th c gt t0 _ carbon r out g RF CR DS DE DO DN W G U M WP PE NE NY E X) as [temp [ins [A1 [A2 [A3 [A4 [A5 _]]]]]]].
  exists temp, ins. rewrite box_years in A4, A5. auto.
Qed.
(** the columns of the carbon cycle frame *)
Lemma c93_frame r out g : d_rf c = None -> conc_run p = false -> d_start c = nystart p -> d_end c = nyend p ->
  distinct_outputs (t_names th) -> dget (t_names th) "dT_glob" = Some "dtemp" -> get_first_key (t_names th) "dtemp" = Ok "dT_glob" ->
  wf gt -> dget gt "CO2" = Some g -> g_unit g <> "-" -> dmem (fr_cols (c_erf sc)) "CO2" = false ->
  wf (fr_cols (c_pc sc)) -> (forall k, In k (dkeys (fr_cols (c_pc sc))) -> dmem (fr_cols (c_erf sc)) k = true) -> (exists k, In k (dkeys (fr_cols (c_pc sc)))) ->
  ~ In "Year" (dkeys gt ++ dkeys (fr_cols (c_pc sc))) ->
  RUN true true r = out -> o_exn out = None ->
  exists temp ins cd ff af, in_array (o_results out) "dT_glob" temp /\ List.length temp = d_years c /\ List.length ins = d_years c /\
    co2_drivers (c_emis sc) g temp (nystart p) (d_years c) ins /\ List.length (snd (box_run bp box_init ins)) = d_years c /\
    in_frame (o_results out) "concentrations" "CO2" (snd (box_run bp box_init ins)) /\
    fst (o_handler out) = fst (box_run bp box_init ins) /\ dget (o_results out) "carbon cycle" = Some (Fr cd) /\
    mapM (fr_get (c_emis sc) "CO2_FF") (years_of p) = Ok ff /\ mapM (fr_get (c_emis sc) "CO2_AFOLU") (years_of p) = Ok af /\
    fr_cols cd = [("Net primary production", npp_series bp temp (snd (box_run bp box_init ins))); ("Ocean carbon flux", uptake_series bp temp (snd (box_run bp box_init ins)));
      ("Airborne fraction CO2", match airborne_fraction (map2 nadd ff af) (snd (box_run bp box_init ins)) (nofZ 278) with Some l => l | None => map (fun _ => nan) ff end)].
Proof.
  intros RF CR DS DE DO DN GF W G U M WP PE NE NY E X.
  destruct (any_co2 nan _ _ _ sc th c gt t0 _ true r out g RF CR DS DE DO DN W G U M WP PE NE NY E X) as [temp [ins [A1 [A2 [A3 [A4 [A5 [A6 A7]]]]]]]].
  destruct (any_frame nan _ _ _ sc th c gt t0 _ r out g temp RF CR DS DE DO DN GF W G U M E X A1) as [series [cc' [cd [d [B1 [B2 [B3 [B4 B5]]]]]]]].
  specialize (B5 _ A6 A7). rewrite box_years in A4, A5, A6, B5.
  unfold box_data in B1. rewrite B4 in B1. cbn [key rbind] in B1. cbv zeta in B1. rewrite CR, B5 in B1.
  destruct (mapM (fr_get (c_emis sc) "CO2_FF") (years_of p)) as [ff|] eqn:FF; cbn [rbind] in B1; [|discriminate].
  destruct (mapM (fr_get (c_emis sc) "CO2_AFOLU") (years_of p)) as [af|] eqn:AF; cbn [rbind] in B1; [|discriminate].
  unfold box_output in B1. rewrite B2 in B1. unfold make_frame in B1. destruct (forallb _ _) in B1; cbn [rbind] in B1; [|discriminate].
  unfold set_col in B1. cbn [fr_index fr_cols] in B1. destruct (Nat.eqb _ _) in B1; cbn [rbind] in B1; [|discriminate]. inversion B1; subst cd.
  assert (LI : List.length ins = d_years c) by (destruct A3; assumption).
  eexists temp, ins, _, ff, af. repeat (split; [eassumption|]). split; [reflexivity|]. split; [reflexivity|]. reflexivity.
Qed.
(** the reader finds no land flux in these columns *)
Lemma c93_reader (cd : frame A) : dkeys (fr_cols cd) = ["Net primary production"; "Ocean carbon flux"; "Airborne fraction CO2"] \/
    dkeys (fr_cols cd) = ["Net primary production"; "Ocean carbon flux"] ->
  forall a b (r : results A) u v, dget r "carbon cycle" = Some (Fr cd) -> In v ["Carbon Flux|Land"; "Carbon Pool|Land"; "Net Flux to Atmosphere|CO2"] ->
  get_variable_timeseries a b r v u = Err (KeyError "Biosphere carbon flux").
Proof.
  intros K a b r u v D I.
  assert (Q : fr_col cd "Biosphere carbon flux" = Err (KeyError "Biosphere carbon flux")).
  { unfold fr_col, key. destruct (dget (fr_cols cd) "Biosphere carbon flux") as [l|] eqn:E; [|reflexivity]. exfalso.
    assert (X : In "Biosphere carbon flux" (dkeys (fr_cols cd))) by (apply dget_In_keys, dmem_true; eauto).
    destruct K as [K|K]; rewrite K in X; cbn in X; intuition discriminate. }
  cbn in I. destruct I as [<-|[<-|[<-|[]]]]; unfold get_variable_timeseries;
    repeat match goal with |- context [contains ?x ?y] => let v := eval vm_compute in (contains x y) in change (contains x y) with v end; cbv iota zeta;
    match goal with |- context [dget carbon_cycle_outputs ?y] => let v := eval vm_compute in (dget carbon_cycle_outputs y) in change (dget carbon_cycle_outputs y) with v end; cbv iota;
    rewrite D; unfold frame_at; rewrite D; cbn [rbind]; unfold carbon_variable;
    repeat match goal with |- context [endswith ?x ?y] => let v := eval vm_compute in (endswith x y) in change (endswith x y) with v end; cbv iota;
    try match goal with |- context [M_Distro.replace ?x ?y ?z] => let v := eval vm_compute in (M_Distro.replace x y z) in change (M_Distro.replace x y z) with v end;
    try match goal with |- context [String.eqb ?x ?y] => let v := eval vm_compute in (String.eqb x y) in change (String.eqb x y) with v end; cbv iota;
    rewrite Q; reflexivity.
Qed.
End Any.
