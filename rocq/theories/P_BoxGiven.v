(** * P_BoxGiven: the box carbon cycle in a run driven by concentrations (C106) *)
From Coq Require Import Reals Lra Lia.
From Verif Require Import PyBase PyBaseFacts Num M_Gas M_Forcing M_Carbon M_CarbonBox M_Driver M_Results M_BoxRun Spec_Gas Spec_Driver Spec_Reader Spec_Results Spec_Coupled Spec_Box Spec_Share
  P_Results P_Driver3 P_Coupled P_AnyCarbon P_Box2 P_Box3 P_CarbonMisc P_Box4 P_CarbonFrame.
From Verif Require P_Coupled2.
From Verif Require Import M_Names.

(** no year of the carbon cycle is run when the concentrations are given *)
Lemma untouched {A : Type} {N : Num A} {T : Type} nan (CC : Type) year data sc (th : thermal A T) c gt t0 (cc0 : CC) carbon r out g :
  d_rf c = None -> conc_run (c_p sc) = true -> d_start c = nystart (c_p sc) ->
  distinct_outputs (t_names th) -> dget (t_names th) "dT_glob" = Some "dtemp" ->
  wf gt -> dget gt "CO2" = Some g -> g_unit g <> "-" -> dmem (fr_cols (c_erf sc)) "CO2" = false -> dmem (fr_cols (c_conc sc)) "CO2" = true ->
  any_run nan CC year data sc th c gt t0 cc0 true carbon r = out -> o_exn out = None -> fst (o_handler out) = cc0.
Proof.
  intros RF CR DS DO DN W G U M DM E X.
  destruct (any_parts nan CC year data sc th c gt t0 cc0 carbon r out RF E X) as [s [series [fs [RY [AR [FS [OH OR]]]]]]].
  destruct (run_trace th c _ _ t0 _ r s DO RF DN RY) as [l [temp [HT [LL [DT [LT _]]]]]].
  assert (IC := P_Coupled2.reset_conc_co2 sc gt g G U M). assert (WC := P_Coupled2.reset_conc_wf sc gt W).
  assert (C0 : cyears (reset_arrays (c_p sc) gt (c_erf sc)) = Some (zrange (nystart (c_p sc)) 0)).
  { unfold cyears. pose proof IC as IC'. apply dget_In_keys, dmem_true in IC'. destruct IC' as [d0 D0]. rewrite D0. apply dget_Some_In in D0.
    unfold reset_arrays in D0. cbn [s_conc] in D0. apply in_map_iff in D0. destruct D0 as [k [Q _]]. inversion Q; subst. reflexivity. }
  destruct (given_trace CC year sc c 0 _ l (l_h s) HT DS CR WC IC DM C0) as [H1 _]. rewrite OH. exact H1.
Qed.

Lemma c106_box_given {T} nan (bp : box_pam R) sc (th : thermal R T) c gt t0 r out g : d_rf c = None -> conc_run (c_p sc) = true -> d_start c = nystart (c_p sc) -> d_end c = nyend (c_p sc) ->
  distinct_outputs (t_names th) -> dget (t_names th) "dT_glob" = Some "dtemp" -> get_first_key (t_names th) "dtemp" = Ok "dT_glob" ->
  wf gt -> dget gt "CO2" = Some g -> g_unit g <> "-" -> dmem (fr_cols (c_erf sc)) "CO2" = false -> dmem (fr_cols (c_conc sc)) "CO2" = true ->
  box_coupled_run nan bp sc th c gt t0 true true r = out -> o_exn out = None ->
  exists temp conc npp flux cd, in_array (o_results out) "dT_glob" temp /\ List.length temp = d_years c /\
    given_conc (c_conc sc) "CO2" (nystart (c_p sc)) (d_years c) conc /\
    dget (o_results out) "carbon cycle" = Some (Fr cd) /\ fr_index cd = zrange (nystart (c_p sc)) (d_years c) /\
    fr_cols cd = [("Net primary production", npp); ("Ocean carbon flux", flux)] /\ List.length npp = d_years c /\ List.length flux = d_years c /\
    (forall k, (k < d_years c)%nat -> nth k npp 0%R = production bp (nth k conc 0%R) (nth k temp 0%R) /\
       nth k flux 0%R = (ocean_rate bp (nth k temp 0) * (nth k conc 0 - 278))%R) /\
    fst (o_handler out) = box_init.
Proof.
  intros RF CR DS DE DO DN GF W G U M DM E X.
  assert (UN := untouched nan _ _ _ sc th c gt t0 _ true r out g RF CR DS DO DN W G U M DM E X).
  destruct (given_frame nan _ _ _ sc th c gt t0 _ r out g RF CR DS DE DO DN GF W G U M DM E X) as [temp [conc [series [cc' [cd [d [B0 [B1 [B2 [B3 [B4 [B5 [B6 B7]]]]]]]]]]]]].
  unfold box_data in B3. rewrite B6 in B3. cbn [key rbind] in B3. cbv zeta in B3. rewrite CR, B7 in B3. rewrite (years_zrange (c_p sc) c DS DE) in B3.
  unfold box_output in B3. rewrite B4 in B3. unfold make_frame in B3. destruct (forallb _ _) in B3; cbn [rbind] in B3; [|discriminate].
  assert (Q : cd = {| fr_index := zrange (nystart (c_p sc)) (d_years c); fr_cols := [("Net primary production", npp_series bp temp conc); ("Ocean carbon flux", uptake_series bp temp conc)] |}) by (inversion B3; reflexivity).
  assert (LC : List.length conc = d_years c) by apply B2. assert (LL : List.length temp = List.length conc) by congruence.
  exists temp, conc, (npp_series bp temp conc), (uptake_series bp temp conc), cd. rewrite Q in *. cbn [fr_index fr_cols].
  split; [exact B0|]. split; [exact B1|]. split; [exact B2|]. split; [exact B5|]. split; [reflexivity|]. split; [reflexivity|].
  split; [unfold npp_series; rewrite map2_len; congruence|]. split; [unfold uptake_series; rewrite map2_len; congruence|]. split; [|exact UN].
  intros k L. assert (NT : nth_error temp k = Some (nth k temp 0%R)) by (apply nth_error_nth'; lia). assert (NC : nth_error conc k = Some (nth k conc 0%R)) by (apply nth_error_nth'; lia). split.
  - unfold npp_series. rewrite (nth_error_nth _ _ _ (map2_nth _ _ _ _ _ _ NT NC)). unfold production. rnum.
    unfold Rmax. destruct (Rlt_dec _ _), (Rle_dec _ _); try reflexivity; lra.
  - unfold uptake_series. rewrite (nth_error_nth _ _ _ (map2_nth _ _ _ _ _ _ NT NC)). unfold ocean_rate. rnum. reflexivity.
Qed.
