(** * P_AnyCarbon: CO2 in a run with any carbon cycle (C92, C93) *)
From Coq Require Import Lia.
From Verif Require Import PyBase PyBaseFacts Num M_Gas M_Forcing M_Carbon M_CarbonBox M_Driver M_Results M_BoxRun Spec_Gas Spec_Driver Spec_Reader Spec_Results Spec_Coupled P_Gas3 P_Results P_Driver3 P_Coupled P_Coupled2.
From Verif Require P_Input2 P_Gas2.

Section Trace.
Context {A : Type} {N : Num A}.
Variables (CC : Type) (year : CC -> nat -> A -> A -> CC * A) (sc : scenario A) (c : inst A).
Notation p := (c_p sc).
Notation HT := (htrace c (any_emi2conc CC year sc) (any_conc2forc CC sc)).

Lemma any_trace n h l h' g : HT n h l h' -> d_start c = nystart p -> conc_run p = false -> wf (s_conc (snd h)) -> In "CO2" (dkeys (s_conc (snd h))) ->
  dget (s_gas (snd h)) "CO2" = Some g -> g_unit g <> "-" ->
  exists ins, List.length ins = List.length l /\
    (forall k x, nth_error l k = Some x -> exists ff af, fr_get (c_emis sc) "CO2_FF" (nystart p + Z.of_nat (n + k)) = Ok ff /\
       fr_get (c_emis sc) "CO2_AFOLU" (nystart p + Z.of_nat (n + k)) = Ok af /\
       nth_error ins k = Some (nadd (nadd ff af) (g_nat g), dtemp_of (fb_of x))) /\
    fst h' = fst (any_years CC year (fst h) n ins) /\ List.length (snd (any_years CC year (fst h) n ins)) = List.length l /\
    (forall k v, nth_error (snd (any_years CC year (fst h) n ins)) k = Some v -> conc_get (snd h') "CO2" (nystart p + Z.of_nat (n + k)) = Ok v) /\
    (forall y, (y < nystart p + Z.of_nat n)%Z -> conc_get (snd h') "CO2" y = conc_get (snd h) "CO2" y) /\
    dkeys (s_conc (snd h')) = dkeys (s_conc (snd h)) /\ dkeys (s_gas (snd h')) = dkeys (s_gas (snd h)).
Proof.
  intros T DS CR. induction T as [n h|n h fb luc sun q h1 h2 l h3 E1 _ _ E2 T IH]; intros W IC G U.
  - exists []. cbn [any_years fst snd List.length]. split; [reflexivity|]. split; [intros [|k] x X; discriminate X|]. split; [reflexivity|]. split; [reflexivity|].
    split; [intros [|k] x X; discriminate X|]. split; [reflexivity|]. split; reflexivity.
  - rewrite DS in *. destruct h as [cc st], h1 as [cc1 st1], h2 as [cc2 st2]. unfold any_emi2conc in E1. cbn [fst snd] in *.
    destruct (e2c_co2 _ _ _ _ _ _ _ _ _ _ _ _ _ _ g W CR IC G U E1) as [[ff [af [F1 [F2 [F3 F4]]]]] [K1 [G1 C1]]].
    unfold any_conc2forc in E2. cbn [fst snd] in E2. destruct (conc2forc _ _ _ _ _ _ _ _ st1) as [[q' st2']|] eqn:E3; cbn [rbind fst snd] in E2; [|discriminate].
    inversion E2; subst cc2 st2' q'. clear E2. destruct (sg_conc2forc _ _ _ _ _ _ _ _ _ _ _ E3) as [G2 [K2 C2]].
    assert (W2 : wf (s_conc st2)).
    { unfold wf in *. change (map fst (s_conc st2)) with (dkeys (s_conc st2)). rewrite K2, K1. exact W. }
    destruct (emi2conc_keeps _ _ _ _ _ _ _ _ _ _ _ _ _ _ E1) as [_ KG].
    destruct IH as [ins [L [I [F [LL [V [B [K KG2]]]]]]]]; [exact W2|rewrite K2, K1; exact IC|rewrite G2; exact G1|exact U|].
    cbv beta in F3, F4. replace (Z.to_nat (nystart p + Z.of_nat n - nystart p)) with n in F3, F4 by lia.
    destruct (year cc n (nadd (nadd ff af) (g_nat g)) (dtemp_of fb)) as [hx cx] eqn:ES. cbn [fst snd] in F3, F4. subst hx.
    exists ((nadd (nadd ff af) (g_nat g), dtemp_of fb) :: ins). cbn [any_years]. rewrite ES.
    destruct (any_years CC year cc1 (Datatypes.S n) ins) as [hr cs] eqn:ER. cbn [fst snd List.length] in *.
    split; [lia|]. split; [|split; [exact F|split; [lia|split; [|split]]]].
    + intros [|k] x X; cbn [nth_error] in X |- *.
      * inversion X; subst x. rewrite Nat.add_0_r. exists ff, af. auto.
      * destruct (I k x X) as [ff' [af' [Y1 [Y2 Y3]]]]. rewrite <- plus_n_Sm. exists ff', af'. auto.
    + intros [|k] v X; cbn [nth_error] in X.
      * inversion X; subst v. rewrite Nat.add_0_r. rewrite B by lia. rewrite C2 by discriminate. exact F4.
      * rewrite <- plus_n_Sm. apply V. exact X.
    + intros y Y. rewrite B by lia. rewrite C2 by discriminate. apply C1. lia.
    + split; congruence.
Qed.
End Trace.

Section Run.
Context {A : Type} {N : Num A} {T : Type}.
Variables (nan : A) (CC : Type) (year : CC -> nat -> A -> A -> CC * A) (data : CC -> hst A -> dict (list A) -> result (CC * frame A)) (sc : scenario A) (th : thermal A T) (c : inst A) (gt : dict (gas A)) (t0 : T) (cc0 : CC).
Notation p := (c_p sc).
Notation RUN := (any_run nan CC year data sc th c gt t0 cc0).

Lemma any_parts carbon r out : d_rf c = None -> RUN true carbon r = out -> o_exn out = None ->
  exists s series fs, run_years T th c (CC * hst A) (any_emi2conc CC year sc) (any_conc2forc CC sc) h_feedbacks t0 (cc0, reset_arrays p gt (c_erf sc)) r = (s, None) /\
    any_add_results nan CC data sc (l_h s) carbon series = Ok fs /\ feedback_series T th h_feedbacks (l_res s) = Ok series /\ o_handler out = l_h s /\
    o_results out = dupdate (l_res s) (map (fun kv => (fst kv, Fr (snd kv))) fs).
Proof.
  intros RF E X. unfold any_run, run in E. destruct (run_years _ _ _ _ _ _ _ _ _ _) as [s [e|]] eqn:RY; [subst out; discriminate X|].
  rewrite RF in E. destruct (feedback_series _ _ _ _) as [series|e] eqn:FS; [|subst out; discriminate X].
  destruct (any_add_results nan CC data sc (l_h s) carbon series) as [fs|e] eqn:AR; [|subst out; discriminate X].
  exists s, series, fs. subst out. cbn. auto.
Qed.

Lemma any_co2 carbon r out g : d_rf c = None -> conc_run p = false -> d_start c = nystart p -> d_end c = nyend p ->
  distinct_outputs (t_names th) -> dget (t_names th) "dT_glob" = Some "dtemp" ->
  wf gt -> dget gt "CO2" = Some g -> g_unit g <> "-" -> dmem (fr_cols (c_erf sc)) "CO2" = false ->
  wf (fr_cols (c_pc sc)) -> (forall k, In k (dkeys (fr_cols (c_pc sc))) -> dmem (fr_cols (c_erf sc)) k = true) -> (exists k, In k (dkeys (fr_cols (c_pc sc)))) ->
  ~ In "Year" (dkeys gt ++ dkeys (fr_cols (c_pc sc))) ->
  RUN true carbon r = out -> o_exn out = None ->
  exists temp ins, in_array (o_results out) "dT_glob" temp /\ List.length temp = d_years c /\
    co2_drivers (c_emis sc) g temp (nystart p) (d_years c) ins /\
    in_frame (o_results out) "concentrations" "CO2" (snd (any_years CC year cc0 0 ins)) /\
    fst (o_handler out) = fst (any_years CC year cc0 0 ins) /\ List.length (snd (any_years CC year cc0 0 ins)) = d_years c /\
    (forall k v, nth_error (snd (any_years CC year cc0 0 ins)) k = Some v -> conc_get (snd (o_handler out)) "CO2" (nystart p + Z.of_nat k) = Ok v).
Proof.
  intros RF CR DS DE DO DN W G U M WP PE NE NY E X.
  destruct (any_parts carbon r out RF E X) as [s [series [fs [RY [AR [_ [OH OR]]]]]]].
  destruct (run_trace th c _ _ t0 _ r s DO RF DN RY) as [l [temp [HT [LL [DT [LT [TF FB]]]]]]].
  assert (IC := P_Coupled2.reset_conc_co2 sc gt g G U M). assert (WC := P_Coupled2.reset_conc_wf sc gt W).
  destruct (any_trace CC year sc c 0 (cc0, reset_arrays p gt (c_erf sc)) l (l_h s) g HT DS CR WC IC G U) as [ins [LI [II [HF [LC [CV [_ [KC KGS]]]]]]]].
  cbn [fst snd] in *.
  (* the frames *)
  unfold any_add_results in AR.
  destruct (forcing_frame p (snd (l_h s)) (c_erf sc)) as [forc|]; cbn [rbind] in AR; [|discriminate].
  destruct (emission_frame p (c_emis sc)) as [em|]; cbn [rbind] in AR; [|discriminate].
  destruct (concentration_frame nan p (snd (l_h s)) (c_pc sc)) as [cf|] eqn:CF; cbn [rbind] in AR; [|discriminate]. cbv zeta in AR.
  assert (FS : exists rest, fs = [("emissions", em); ("concentrations", cf); ("forcing", forc)] ++ rest /\ (rest = [] \/ exists v, rest = [("carbon cycle", v)])).
  { destruct carbon; [|exists []; inversion AR; split; [reflexivity|left; reflexivity]].
    destruct (data (fst (l_h s)) (snd (l_h s)) series) as [cd|]; cbn [rbind] in AR; [|discriminate]. inversion AR.
    exists [("carbon cycle", snd cd)]. split; [reflexivity|]. right; eauto. }
  destruct FS as [rest [FS RS]].
  assert (WF : wf (map (fun kv : string * frame A => (fst kv, Fr (snd kv))) fs)).
  { rewrite FS. destruct RS as [->|[v ->]]; apply nodupb_NoDup; reflexivity. }
  assert (GC : dget (o_results out) "concentrations" = Some (Fr cf)).
  { rewrite OR, dget_dupdate by exact WF. rewrite FS. reflexivity. }
  assert (GT : dget (o_results out) "dT_glob" = Some (Arr temp)).
  { rewrite OR, dget_dupdate by exact WF. rewrite FS. destruct RS as [->|[v ->]]; cbn; exact DT. }
  assert (YL : List.length (years_of p) = d_years c).
  { unfold years_of, d_years. rewrite P_Input2.zrange_length, DS, DE. reflexivity. }
  destruct (concentration_spec nan p (snd (l_h s)) (c_pc sc) cf) as [_ [_ [_ [_ [CS _]]]]].
  { rewrite KC. constructor.
    - rewrite in_app_iff. intros [I|I]; [apply reset_conc_keys in I; apply NY, in_or_app; left; tauto|apply NY, in_or_app; right; exact I].
    - assert (Q : forall a b : list string, NoDup a -> NoDup b -> (forall k, In k a -> ~ In k b) -> NoDup (a ++ b)).
      { induction a as [|k a IH]; intros b Na Nb D; [exact Nb|]. inversion Na; subst. cbn [app]. constructor.
        - rewrite in_app_iff. intros [I|I]; [contradiction|]. apply (D k); [left; reflexivity|exact I].
        - apply IH; try assumption. intros k' I. apply D. right; exact I. }
      apply Q; [exact WC|exact WP|]. intros k I I'. apply reset_conc_keys in I. destruct I as [_ I]. rewrite (PE k I') in I. discriminate I. }
  { rewrite KGS. intros I. apply NY, in_or_app. left; exact I. }
  { exact NE. }
  { exact CF. }
  exists temp, ins. split; [exact GT|]. split; [exact LT|]. split; [|split; [|rewrite OH; split; [exact HF|split; [congruence|exact CV]]]].
  - split; [congruence|]. intros k Lk. assert (Lk' : (k < List.length l)%nat) by lia. apply nth_error_Some in Lk'.
    destruct (nth_error l k) as [x|] eqn:NX; [|congruence]. destruct (II k x NX) as [ff [af [I1 [I2 I3]]]]. cbn [plus] in I1, I2.
    exists ff, af. split; [exact I1|]. split; [exact I2|]. rewrite I3. rewrite (FB k x NX). do 2 f_equal. destruct k as [|j]; [reflexivity|].
    cbn [last_year]. assert (Lj : (j < List.length temp)%nat) by lia. apply nth_error_Some in Lj.
    destruct (nth_error temp j) as [d|] eqn:ND; [|congruence]. cbn [option_map dtemp_of dget String.eqb Ascii.eqb Bool.eqb]. symmetry. apply nth_error_nth. exact ND.
  - exists cf. split; [exact GC|]. 
    assert (ID : In "CO2" (dkeys (s_conc (snd (l_h s))))) by (rewrite KC; exact IC). apply dget_In_keys, dmem_true in ID. destruct ID as [d D].
    rewrite (CS "CO2" d); [|rewrite KGS; apply dget_In_keys, dmem_true; eauto|exact D]. f_equal. unfold conc_series. apply nth_error_eq. intros n. rewrite nth_error_map.
    destruct (Nat.ltb_spec n (d_years c)) as [Ln|Ln].
    + unfold years_of. rewrite P_Gas2.zrange_nth; [|unfold years_of in YL; rewrite P_Input2.zrange_length in YL; lia]. cbn [option_map].
      assert (Lc : (n < List.length (snd (any_years CC year cc0 0 ins)))%nat) by lia. apply nth_error_Some in Lc.
      destruct (nth_error (snd (any_years CC year cc0 0 ins)) n) as [v|] eqn:NV; [|congruence]. specialize (CV n v NV). cbn [plus] in CV.
      unfold conc_get in CV. rewrite D in CV. cbn [key rbind] in CV. destruct (yget d _) as [v'|]; cbn [key] in CV; [|discriminate]. congruence.
    + rewrite (proj2 (nth_error_None _ _)) by lia. cbn [option_map]. symmetry. apply nth_error_None. lia.
Qed.
End Run.
