(** * Properties_Box: the box carbon cycle, alone and in a run (C92, C93) *)
From Coq Require Import QArith Reals Lra Lia.
From Verif Require Import PyBase PyBaseFacts Num M_Gas M_Forcing M_Carbon M_CarbonBox M_TwoLayer M_UDM M_Driver M_Results M_BoxRun M_Reader Spec_Driver Spec_Reader Spec_Results Spec_Coupled
  Spec_UDM Spec_Carbon Spec_Box P_Box P_Box3 P_Box4 Properties_Coupled Properties_Reader.
Open Scope R_scope.

(** ** C92 *)
(** carbon_cycle_mod_box.py 19-28 *)
Definition box_default : box_pam R :=
  {| b_beta_f := 287 / 1000; b_land_sens := 1 / 10; b_soil_rate := 2 / 100; b_mld := 25; b_exchange := 1 / 100; b_veg_frac := 1 / 10;
     b_sol_base := 2 / 100; b_sol_coeff := - (1 / 100); b_idtm := 24; b_preind := 278 |}.
Theorem C92_pools_nonnegative : forall p ins, 0 <= b_veg_frac p <= 1 -> 0 <= b_soil_rate p <= 1 -> forall s, 0 <= veg s -> 0 <= soil s ->
  0 <= veg (fst (box_run p s ins)) /\ 0 <= soil (fst (box_run p s ins)).
Proof. exact c92_nonneg. Qed.
Print Assumptions C92_pools_nonnegative.
(** More emissions leave no pool smaller, year by year. *)
Theorem C92_order : forall p a ins ins', shares p -> 0 < a -> Forall (fun i => tame p a (snd i)) ins -> Forall2 emits_less ins ins' ->
  forall s s', a <= atm s -> Forall (Rle a) (snd (box_run p s ins)) -> box_le s s' ->
  box_le (fst (box_run p s ins)) (fst (box_run p s' ins')) /\ Forall2 Rle (snd (box_run p s ins)) (snd (box_run p s' ins')).
Proof. exact c92_order. Qed.
Print Assumptions C92_order.
(** Constant warming, nonnegative emissions: never below the preindustrial state of this warming, and what the ocean has taken up
    is limited by what was emitted. *)
Theorem C92_floor : forall p t em s n, shares p -> 0 < b_veg_frac p -> 0 < b_soil_rate p -> tame p 278 t -> above_rest p t s -> (forall n, 0 <= em n) ->
  above_rest p t (box_at p s t em n) /\ ocean_rate p t * sumn (fun k => atm (box_at p s t em k) - 278) n <= excess p t s + sumn em n.
Proof. exact c92_floor. Qed.
Print Assumptions C92_floor.
(** Once emissions stop everything that was emitted ends up in the ocean: the uptake does not depend on what the ocean holds. *)
Theorem C92_forgets : forall p t em s K, shares p -> 0 < b_veg_frac p -> 0 < b_soil_rate p -> tame p 278 t -> 0 < ocean_rate p t -> above_rest p t s ->
  (forall n, 0 <= em n) -> (forall n, (K <= n)%nat -> em n = 0) ->
  Un_cv (fun n => atm (box_at p s t em n)) 278 /\ Un_cv (fun n => veg (box_at p s t em n)) (veg_rest p t) /\
  Un_cv (fun n => soil (box_at p s t em n)) (soil_rest p t) /\ Un_cv (fun n => ocean (box_at p s t em n)) (ocean s + excess p t s + sumn em K).
Proof. exact c92_forgets. Qed.
Print Assumptions C92_forgets.
(** The start of a run qualifies when the shares are those of the package. *)
Theorem C92_start : forall p t, b_veg_frac p = 1 / 10 -> b_soil_rate p = 1 / 50 -> 0 <= b_land_sens p * t -> above_rest p t box_init.
Proof. exact c92_start. Qed.
Print Assumptions C92_start.
(** The package's parameters, warming from 0 to below 100 K: 10 PgC a year for 100 years, then nothing. *)
Example C92_default : forall t, 0 <= t < 100 -> let em n := if Nat.ltb n 100 then 10 else 0 in
  Un_cv (fun n => atm (box_at box_default box_init t em n)) 278 /\
  (forall n, 278 <= atm (box_at box_default box_init t em n)) /\
  ocean_rate box_default 0 * (atm (box_at box_default box_init 0 em 1) - 278) > 0.
Proof.
  intros t L em.
  assert (SH : shares box_default) by (constructor; cbn; lra).
  assert (K0 : 0 < ocean_rate box_default t) by (unfold ocean_rate; cbn; nra).
  assert (TM : tame box_default 278 t) by (unfold tame; split; [lra|unfold ocean_rate, pgc; cbn; lra]).
  assert (AB : above_rest box_default t box_init) by (apply C92_start; cbn; lra).
  assert (EM : forall n, 0 <= em n) by (intros n; unfold em; destruct (Nat.ltb n 100); lra).
  split; [|split].
  - apply (C92_forgets box_default t em box_init 100 SH); try assumption; try (cbn; lra). intros n Ln. unfold em. destruct (Nat.ltb_spec n 100); [lia|reflexivity].
  - intros n. apply (C92_floor box_default t em box_init n SH); try assumption; cbn; lra.
  - unfold box_at. cbn [seq map box_run]. destruct (box_step box_default box_init (em 0%nat) 0) as (A1 & _). cbv zeta in A1.
    destruct (box_year box_default box_init (em 0%nat) 0) as [s1 c1]. cbn [fst] in *. rewrite A1. unfold ocean_rate, production, em, pgc. cbn. replace (278 / 278) with 1 by lra. rewrite ln_1.
    unfold Rmax. destruct (Rle_dec _ _); lra.
Qed.
(** Soil that decays at half the package's rate: the start is no state of rest, and the atmosphere falls below 278 ppm without
    emissions (the logarithm plays no part with [b_beta_f] zero). *)
Example C92_start_needed :
  let p := {| b_beta_f := 0; b_land_sens := 1 / 10; b_soil_rate := 1 / 100; b_mld := 25; b_exchange := 1 / 100; b_veg_frac := 1 / 10;
     b_sol_base := 1 / 50; b_sol_coeff := - 1 / 100; b_idtm := 24; b_preind := 278 |}%Q in
  map Qred (snd (box_run (N := QNum) p (box_init (N := QNum)) [(0, 0)]%Q)) = [Qmake 560194 2123].
Proof. vm_compute. reflexivity. Qed.

(** ** C93 *)
Theorem C93_co2_alone : forall (A : Type) (N : Num A) T nan bp sc (th : thermal A T) c gt t0 carbon r out g,
  d_rf c = None -> conc_run (c_p sc) = false -> d_start c = nystart (c_p sc) -> d_end c = nyend (c_p sc) ->
  distinct_outputs (t_names th) -> dget (t_names th) "dT_glob" = Some "dtemp" ->
  wf gt -> dget gt "CO2" = Some g -> g_unit g <> "-" -> dmem (fr_cols (c_erf sc)) "CO2" = false ->
  wf (fr_cols (c_pc sc)) -> (forall k, In k (dkeys (fr_cols (c_pc sc))) -> dmem (fr_cols (c_erf sc)) k = true) -> (exists k, In k (dkeys (fr_cols (c_pc sc)))) ->
  ~ In "Year" (dkeys gt ++ dkeys (fr_cols (c_pc sc))) ->
  box_coupled_run nan bp sc th c gt t0 true carbon r = out -> o_exn out = None ->
  exists temp ins, in_array (o_results out) "dT_glob" temp /\ List.length temp = d_years c /\
    co2_drivers (c_emis sc) g temp (nystart (c_p sc)) (d_years c) ins /\
    in_frame (o_results out) "concentrations" "CO2" (snd (box_run bp box_init ins)) /\
    fst (o_handler out) = fst (box_run bp box_init ins).
Proof. intros A N T. exact (@c93_co2 A N T). Qed.
Print Assumptions C93_co2_alone.
(** The fluxes reported for a year are those of the next year: they are computed from the concentration and temperature at the end
    of the year they are reported for. The balance of a year therefore has the ocean column of the years before. *)
Theorem C93_fluxes : forall T nan bp sc (th : thermal R T) c gt t0 r out g,
  d_rf c = None -> conc_run (c_p sc) = false -> d_start c = nystart (c_p sc) -> d_end c = nyend (c_p sc) ->
  distinct_outputs (t_names th) -> dget (t_names th) "dT_glob" = Some "dtemp" -> get_first_key (t_names th) "dtemp" = Ok "dT_glob" ->
  wf gt -> dget gt "CO2" = Some g -> g_unit g <> "-" -> dmem (fr_cols (c_erf sc)) "CO2" = false ->
  wf (fr_cols (c_pc sc)) -> (forall k, In k (dkeys (fr_cols (c_pc sc))) -> dmem (fr_cols (c_erf sc)) k = true) -> (exists k, In k (dkeys (fr_cols (c_pc sc)))) ->
  ~ In "Year" (dkeys gt ++ dkeys (fr_cols (c_pc sc))) ->
  box_coupled_run nan bp sc th c gt t0 true true r = out -> o_exn out = None ->
  exists temp ins conc npp flux, in_array (o_results out) "dT_glob" temp /\ co2_drivers (c_emis sc) g temp (nystart (c_p sc)) (d_years c) ins /\
    in_frame (o_results out) "concentrations" "CO2" conc /\ in_frame (o_results out) "carbon cycle" "Net primary production" npp /\
    in_frame (o_results out) "carbon cycle" "Ocean carbon flux" flux /\
    List.length conc = d_years c /\ List.length npp = d_years c /\ List.length flux = d_years c /\
    let state k := fst (box_run bp box_init (firstn k ins)) in
    forall k, (k < d_years c)%nat ->
      nth k conc 0 = atm (state (S k)) /\
      nth k npp 0 = production bp (nth k conc 0) (nth k temp 0) /\
      nth k flux 0 = ocean_rate bp (nth k temp 0) * (nth k conc 0 - 278) /\
      ((S k < d_years c)%nat -> ocean (state (S (S k))) - ocean (state (S k)) = nth k flux 0 /\
         veg (state (S (S k))) - (1 - b_veg_frac bp) * veg (state (S k)) = nth k npp 0) /\
      pgc * (nth k conc 0 - 278) + (veg (state (S k)) + soil (state (S k)) - 3600) + sumn (fun i => nth i flux 0) k = total (map fst (firstn (S k) ins)).
Proof. intros T. exact (@c93 T). Qed.
Print Assumptions C93_fluxes.
(** Both thermal models qualify (with [C79_models]). *)
Theorem C93_models : forall (A : Type) (N : Num A) (p2 : tl_pam A) (pu : ud_pam A),
  get_first_key (t_names (tl_thermal p2)) "dtemp" = Ok "dT_glob" /\ get_first_key (t_names (ud_thermal pu)) "dtemp" = Ok "dT_glob".
Proof. intros A N p2 pu. split; reflexivity. Qed.
Print Assumptions C93_models.
(** The reader of the package asks for a column that this carbon cycle does not deliver. *)
Theorem C93_reader : forall (A : Type) (N : Num A) (cd : frame A),
  dkeys (fr_cols cd) = ["Net primary production"; "Ocean carbon flux"; "Airborne fraction CO2"] \/ dkeys (fr_cols cd) = ["Net primary production"; "Ocean carbon flux"] ->
  forall a b (r : results A) u v, dget r "carbon cycle" = Some (Fr cd) -> In v ["Carbon Flux|Land"; "Carbon Pool|Land"; "Net Flux to Atmosphere|CO2"] ->
  get_variable_timeseries a b r v u = Err (KeyError "Biosphere carbon flux").
Proof. intros A N. exact (@c93_reader A N). Qed.
Print Assumptions C93_reader.

Definition bx_pam : box_pam Q :=
  {| b_beta_f := 0; b_land_sens := 1 / 10; b_soil_rate := 1 / 50; b_mld := 25; b_exchange := 1 / 100; b_veg_frac := 1 / 10;
     b_sol_base := 1 / 50; b_sol_coeff := - 1 / 100; b_idtm := 24; b_preind := 278 |}%Q.
Definition bx_run (crun : bool) : outcome Q (box_state Q * hst Q) :=
  box_coupled_run (N := QNum) (- 999)%Q bx_pam (kx_scenario crun) kx_thermal kx_inst kx_table tt true true [].
Definition bx_column (f k : string) (o : outcome Q (box_state Q * hst Q)) : option (list Q) :=
  match dget (o_results o) f with Some (Fr fr) => option_map (map Qred) (dget (fr_cols fr) k) | _ => None end.

(** Two years with emissions of 10.25 PgC (a natural 0.25 included). The ocean column of 2000 is not zero although the ocean took nothing
    up in that year: it is the uptake of 2001, the balance of which needs it. *)
Example C93_evaluated : o_exn (bx_run false) = None /\
  bx_column "concentrations" "CO2" (bx_run false) = Some [Qmake 600444 2123; Qmake 10374515277 36057032] /\
  bx_column "carbon cycle" "Net primary production" (bx_run false) = Some [Qmake 239037 4000; Qmake 241677 4000] /\
  bx_column "carbon cycle" "Ocean carbon flux" (bx_run false) = Some [Qmake 1600517 16984000; Qmake 14614472698937 72114064000000] /\
  omix (fst (box_run (N := QNum) bx_pam (box_init (N := QNum)) [(Qmake 41 4, 0)]%Q)) = omix (box_init (N := QNum)).
Proof. vm_compute. repeat split. Qed.
(** With given concentrations there is no airborne fraction. *)
Example C93_concentration_run : o_exn (bx_run true) = None /\ bx_column "concentrations" "CO2" (bx_run true) = Some [280; 290]%Q /\
  bx_column "carbon cycle" "Ocean carbon flux" (bx_run true) = Some [Qmake 39037 1000000; Qmake 125031 500000] /\
  bx_column "carbon cycle" "Airborne fraction CO2" (bx_run true) = None /\
  bx_column "carbon cycle" "Airborne fraction CO2" (bx_run false) = Some [Qmake 41 40; Qmake 350660381 339680000].
Proof. vm_compute. repeat split. Qed.
Example C93_reader_evaluated :
  get_variable_timeseries (N := QNum) 2000 2001 (o_results (bx_run false)) "Carbon Flux|Land" ex_units = Err (KeyError "Biosphere carbon flux").
Proof. vm_compute. reflexivity. Qed.
