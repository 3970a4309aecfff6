(** * P_Coupled4: the carbon balance in the results of a coupled run (C84) *)
From Coq Require Import Reals Lra Lia.
From Verif Require Import PyBase PyBaseFacts Num M_Gas M_Forcing M_Carbon M_CarbonBack M_Driver M_Results Spec_Gas Spec_Driver Spec_Reader Spec_Results Spec_Coupled Spec_UDM Spec_Carbon
  P_Carbon4 P_Results P_Driver3 P_Coupled P_Coupled2.
From Verif Require P_Input2 P_Gas2.
Open Scope R_scope.

Section Run.
Context {T : Type}.
Variables (nan : R) (cp : cc_pam R) (sc : scenario R) (th : thermal R T) (c : inst R) (gt : dict (gas R)) (t0 : T) (cc0 : cc_state R).
Notation p := (c_p sc).
Notation RUN := (coupled_run nan cp sc th c gt t0 cc0).

Lemma carbon_columns r out : d_rf c = None -> conc_run p = false -> RUN true true r = out -> o_exn out = None ->
  in_frame (o_results out) "carbon cycle" "Biosphere carbon flux" (biosphere_flux cp (ffer_series cp (h_d (fst (o_handler out))))) /\
  in_frame (o_results out) "carbon cycle" "Ocean carbon flux" (ocean_flux cp (fst (o_handler out))) /\
  List.length (ocean_flux cp (fst (o_handler out))) = List.length (years_of p) /\
  List.length (biosphere_flux cp (ffer_series cp (h_d (fst (o_handler out))))) = List.length (years_of p).
Proof.
  intros RF CR E X.
  destruct (run_parts nan cp sc th c gt t0 cc0 true r out RF E X) as [s [series [fs [RY [AR [OH OR]]]]]].
  unfold h_add_results in AR.
  destruct (forcing_frame p (snd (l_h s)) (c_erf sc)) as [forc|] eqn:FF; cbn [rbind] in AR; [|discriminate].
  destruct (emission_frame p (c_emis sc)) as [em|]; cbn [rbind] in AR; [|discriminate].
  destruct (concentration_frame nan p (snd (l_h s)) (c_pc sc)) as [cf|]; cbn [rbind] in AR; [|discriminate]. cbv zeta in AR.
  destruct (carbon_data nan cp p (c_emis sc) (fst (l_h s)) (snd (l_h s)) series) as [[cc' cd]|] eqn:CD; cbn [rbind snd] in AR; [|discriminate].
  assert (FS : fs = [("emissions", em); ("concentrations", cf); ("forcing", forc)] ++ [("carbon cycle", cd)]) by (inversion AR; reflexivity). clear AR.
  assert (WF : wf (map (fun kv : string * frame R => (fst kv, Fr (snd kv))) fs)) by (rewrite FS; apply nodupb_NoDup; reflexivity).
  assert (GC : dget (o_results out) "carbon cycle" = Some (Fr cd)).
  { rewrite OR, dget_dupdate by exact WF. rewrite FS. reflexivity. }
  unfold carbon_data in CD. destruct (key "CO2" _) as [d|]; cbn [rbind] in CD; [|discriminate]. rewrite CR in CD. cbv zeta in CD.
  destruct (mapM _ (years_of p)) as [ff|]; cbn [rbind] in CD; [|discriminate]. destruct (mapM _ (years_of p)) as [af|]; cbn [rbind] in CD; [|discriminate].
  unfold carbon_output in CD. destruct (dget series "dtemp") as [dt|]; cbn [rbind] in CD; [|discriminate].
  destruct (make_frame _ _) as [f1|] eqn:MF; cbn [rbind fst snd] in CD; [|discriminate].
  unfold make_frame in MF. destruct (forallb _ _) eqn:FA; [|discriminate]. inversion MF; subst f1. clear MF.
  unfold set_col in CD. cbn [fr_index fr_cols] in CD. destruct (Nat.eqb _ _) in CD; cbn [rbind] in CD; [|discriminate]. inversion CD; subst cc' cd. clear CD.
  rewrite OH. cbn [forallb snd] in FA. apply andb_prop in FA. destruct FA as [F1 FA]. apply andb_prop in FA. destruct FA as [F2 _].
  apply Nat.eqb_eq in F1, F2. split; [|split; [|split; [exact F2|exact F1]]]; eexists; (split; [exact GC|reflexivity]).
Qed.
End Run.

Lemma c84 {T} nan cp sc (th : thermal R T) c gt t0 r out g : d_rf c = None -> conc_run (c_p sc) = false -> d_start c = nystart (c_p sc) -> d_end c = nyend (c_p sc) ->
  distinct_outputs (t_names th) -> dget (t_names th) "dT_glob" = Some "dtemp" ->
  wf gt -> dget gt "CO2" = Some g -> g_unit g <> "-" -> dmem (fr_cols (c_erf sc)) "CO2" = false ->
  wf (fr_cols (c_pc sc)) -> (forall k, In k (dkeys (fr_cols (c_pc sc))) -> dmem (fr_cols (c_erf sc)) k = true) -> (exists k, In k (dkeys (fr_cols (c_pc sc)))) ->
  ~ In "Year" (dkeys gt ++ dkeys (fr_cols (c_pc sc))) ->
  idtm cp <> 0%nat -> List.length (r_s cp) = (idtm cp * years_tot cp)%nat -> List.length (r_b cp) = (idtm cp * years_tot cp)%nat -> d_years c <> 0%nat ->
  coupled_run nan cp sc th c gt t0 (cc_init cp) true true r = out -> o_exn out = None ->
  exists temp ins conc bio ocean, in_array (o_results out) "dT_glob" temp /\ co2_drivers (c_emis sc) g temp (nystart (c_p sc)) (d_years c) ins /\
    in_frame (o_results out) "concentrations" "CO2" conc /\ in_frame (o_results out) "carbon cycle" "Biosphere carbon flux" bio /\
    in_frame (o_results out) "carbon cycle" "Ocean carbon flux" ocean /\
    List.length conc = d_years c /\ List.length bio = d_years c /\ List.length ocean = d_years c /\
    let h := fst (o_handler out) in
    let em y := fst (nth y ins (0, 0)) in let t y := snd (nth y ins (0, 0)) in let final := (d_years c * idtm cp - 1)%nat in
    pgc * (List.last conc 0 - preind cp) + total bio + total ocean - total (map fst ins)
    = pgc * (1 / INR (idtm cp) / 2 * (surplus cp em (h_d h) 0 - surplus cp em (h_d h) final + gas_rate * nth final (h_s h) 0)
             + (h_y h - h_y (cc_steps cp (cc_init cp) em t final)) / 2).
Proof.
  intros RF CR DS DE DO DN W G U M WP PE NE NY I0 L1 L2 Y0 E X.
  destruct (c79 nan cp sc th c gt t0 (cc_init cp) true r out g RF CR DS DE DO DN W G U M WP PE NE NY E X) as [temp [ins [A1 [A2 [A3 [A4 A5]]]]]].
  destruct (carbon_columns nan cp sc th c gt t0 (cc_init cp) r out RF CR E X) as [B1 [B2 [B3 B4]]].
  assert (YL : List.length (years_of (c_p sc)) = d_years c).
  { unfold years_of, d_years. rewrite P_Input2.zrange_length, DS, DE. reflexivity. }
  assert (LI : List.length ins = d_years c) by (destruct A3; assumption).
  assert (YT : years_tot cp = d_years c).
  { rewrite <- YL, <- B3. unfold ocean_flux, tab. rewrite map_length, seq_length. reflexivity. }
  exists temp, ins, (snd (cc_run cp (cc_init cp) 0 ins)), (biosphere_flux cp (ffer_series cp (h_d (fst (o_handler out))))), (ocean_flux cp (fst (o_handler out))).
  split; [exact A1|]. split; [exact A3|]. split; [exact A4|]. split; [exact B1|]. split; [exact B2|].
  assert (LC : forall l h y, List.length (snd (cc_run cp h y l)) = List.length l).
  { induction l as [|[e t] l IH]; intros h y; [reflexivity|]. cbn [cc_run]. destruct (co2em2conc cp h y e t) as [h1 x]. specialize (IH h1 (S y)). destruct (cc_run cp h1 (S y) l) as [h2 cs]. cbn [snd List.length] in *. lia. }
  split; [rewrite LC; exact LI|]. split; [congruence|]. split; [congruence|].
  assert (NI : ins <> []) by (intros Q; rewrite Q in LI; cbn in LI; congruence).
  assert (LY : (List.length ins <= years_tot cp)%nat) by lia.
  assert (K := c26 cp ins I0 NI LY L1 L2). cbv zeta in K |- *. rewrite A5. rewrite LI in K. rewrite A5 in B3, B4.
  rewrite (firstn_all2 (biosphere_flux _ _)) in K by lia. rewrite (firstn_all2 (ocean_flux _ _)) in K by lia. exact K.
Qed.
