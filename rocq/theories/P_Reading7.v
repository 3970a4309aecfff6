(** * P_Reading7: units of an instance made from files (C102) *)
From Verif Require Import PyBase PyBaseFacts Num M_Utils M_Pams M_Gas M_Driver M_Input M_Whole M_Reading Spec_Input Spec_Reading P_Input P_Input2 P_Input3 P_Input5 P_Reading P_Reading4.

Section Units.
Context {A : Type} {N : Num A}.
Variables (nan : A) (fs : files A) (object : pyval -> option (thing A)) (dir cwd : string).
Lemma open_year_file cfg h k p : wf cfg -> open_inputs nan fs object dir cwd cfg = Ok h -> In k ["emissions_file"; "concentrations_file"] ->
  dget cfg k = Some p -> dget h k = Some (CV p).
Proof.
  intros W O I P.
  assert (k <> "nat_ch4_data" /\ k <> "nat_n2o_data" /\ k <> "nat_ch4_file" /\ k <> "nat_n2o_file" /\ is_file_key k = true) as (N1 & N2 & N3 & N4 & K)
    by (repeat (destruct I as [<-|I]; [repeat split; discriminate|]); destruct I).
  destruct (open_keys _ _ _ _ _ cfg h k W O N1 N2) as (years & h3 & Y & G & X).
  assert (dget h3 k = Some (CV p)) as L.
  { rewrite G. unfold with_defaults. repeat (destruct I as [<-|I]; [eqbs; cbn [andb orb]; rewrite init_used by (reflexivity || now apply caller_wf); rewrite caller_get by exact W; rewrite P; destruct (sunvolc_on (driver_caller_cfg cfg)); reflexivity|]). destruct I. }
  rewrite L in X. destruct X as (v' & E & R). rewrite E. f_equal. unfold redirected in R. destruct (is_file_key k && negb _); [|exact R]. destruct R as [[R _]|[R _]]; contradiction.
Qed.
Lemma open_checked cfg h : open_inputs nan fs object dir cwd cfg = Ok h -> check_gaspam (gas_table nan fs object) (header fs) h = Ok tt.
Proof. unfold open_inputs. generalize (driver_caller_cfg cfg). intros c O. exact (c59_init _ _ _ _ _ _ _ O). Qed.
Lemma read_open cfg x : read_data nan fs object dir cwd cfg = Ok x -> exists h, open_inputs nan fs object dir cwd cfg = Ok h.
Proof. unfold read_data. generalize (open_inputs nan fs object dir cwd cfg). intros [h|e] R; [eauto|discriminate R]. Qed.
Lemma got_optional (h : hcfg A) d : get_data h "gaspam" = Ok d -> optional_pam h "gaspam" = true.
Proof. intros GD. unfold get_data in GD. unfold optional_pam, dmem. cbn [append] in *. destruct (dget h "gaspam_file"), (dget h "gaspam_data"); try reflexivity. discriminate GD. Qed.
Lemma checked_units (h : hcfg A) d g p f : check_gaspam (gas_table nan fs object) (header fs) h = Ok tt -> get_data h "gaspam" = Ok d -> content nan fs object d = Ok (TGas g) ->
  dget h "emissions_file" = Some p -> fs_years fs p = Ok f ->
  (forall k, In k (dkeys g) -> ~ In k no_em -> k <> "CO2.1" /\ exists u, In (k, u) (combine (yf_names f) (yf_units f))) ->
  forall k l, In (k, l) g -> ~ In k no_em ->
  (forall u, dget (combine (yf_names f) (yf_units f)) k = Some u -> u = gl_em_unit l) /\
  (forall q fc u, dget h "concentrations_file" = Some q -> fs_years fs q = Ok fc -> dget (combine (yf_names fc) (yf_units fc)) k = Some u -> u = g_unit (gl_gas l)).
Proof.
  intros CK GD GH P F LI k l IG NE.
  unfold check_gaspam in CK. rewrite (got_optional h d GD), GD in CK. cbn [rbind] in CK. unfold gas_table at 1, gas_content in CK. rewrite GH in CK. cbn [rbind] in CK.
  destruct (mapM _ no_emissions); [|discriminate CK]. cbn [rbind] in CK. set (g' := filter _ (gas_rows g)) in CK.
  assert (I' : In (k, {| em_unit := gl_em_unit l; conc_unit := g_unit (gl_gas l); nat_em := g_nat (gl_gas l) |}) g').
  { apply filter_In. split; [unfold gas_rows; apply in_map_iff; exists (k, l); auto|]. cbn [fst]. apply Bool.negb_true_iff. destruct (smem k no_emissions) eqn:E; [|reflexivity]. apply smem_In in E. contradiction. }
  unfold check_emissions in CK. rewrite P in CK. unfold header at 1 in CK. rewrite F in CK. cbn [rbind] in CK.
  destruct (dget (combine (yf_names f) (yf_units f)) "CO2.1"); [|discriminate CK]. cbn [key rbind] in CK.
  assert (FB : forallb (fun k => dmem (ddel (combine (yf_names f) (yf_units f)) "CO2.1") k) (dkeys g') = true).
  { apply forallb_forall. intros z Z. apply in_map_iff in Z as ([z' row] & EZ & Z). cbn in EZ. subst z'. apply filter_In in Z as [Z NZ]. cbn [fst] in NZ.
    unfold gas_rows in Z. apply in_map_iff in Z as ([z' lz] & EZ & Z). cbn in EZ. injection EZ as -> _.
    destruct (LI z) as (NC & u & IU); [now apply (in_map fst) in Z| |].
    { intros IN. apply Bool.negb_true_iff in NZ. assert (smem z no_emissions = true) as X; [|congruence]. apply smem_In. exact IN. }
    unfold dmem. rewrite dget_ddel_neq by congruence. change (dmem (combine (yf_names f) (yf_units f)) z = true). apply dget_In_keys. now apply (in_map fst) in IU. }
  rewrite FB in CK. cbn [negb] in CK. destruct (units_differ _ g' em_unit) eqn:UD; [discriminate CK|]. cbn [rbind] in CK. split.
  - intros u U. assert (X := proj1 (units_differ_false _ _ _) UD _ _ I'). cbn [em_unit] in X.
    destruct (LI k) as (NC & _); [now apply (in_map fst) in IG|exact NE|]. rewrite dget_ddel_neq in X by congruence. rewrite U in X. exact X.
  - intros q fc u Q FC U. unfold check_concentrations in CK. rewrite Q in CK. unfold header in CK. rewrite FC in CK. cbn [rbind] in CK.
    destruct (units_differ _ _ conc_unit) eqn:UC; [discriminate CK|].
    assert (X := proj1 (units_differ_false _ _ _) UC k _ ltac:(apply filter_In; split; [exact I'|cbn [fst]; unfold dmem; rewrite U; reflexivity])). cbn [conc_unit] in X. rewrite U in X. exact X.
Qed.
Lemma c102_units cfg x g p f : wf cfg -> read_data nan fs object dir cwd cfg = Ok x -> input nan fs object dir cwd cfg "gaspam" (TGas g) ->
  dget cfg "emissions_file" = Some p -> fs_years fs (CV p) = Ok f -> all_gases_listed nan fs object dir cwd cfg ->
  forall k l, In (k, l) g -> ~ In k no_em ->
  (forall u, dget (combine (yf_names f) (yf_units f)) k = Some u -> u = gl_em_unit l) /\
  (forall q fc u, dget cfg "concentrations_file" = Some q -> fs_years fs (CV q) = Ok fc -> dget (combine (yf_names fc) (yf_units fc)) k = Some u -> u = g_unit (gl_gas l)).
Proof.
  intros W R G P F LI k l IG NE. destruct (read_open cfg x R) as [h O]. clear R x.
  assert (GH := input_get _ _ _ _ _ _ _ _ _ W O G). assert (CK := open_checked cfg h O).
  assert (PE := open_year_file cfg h "emissions_file" p W O (or_introl eq_refl) P).
  assert (PC := fun q => open_year_file cfg h "concentrations_file" q W O (or_intror (or_introl eq_refl))).
  assert (L' := fun k => LI p f g P F G k). clear LI G O W. unfold get in GH.
  destruct (get_data h "gaspam") as [d|] eqn:GD; [|discriminate GH]. cbn [rbind] in GH.
  destruct (checked_units h d g (CV p) f CK GD GH PE F L' k l IG NE) as [A1 A2]. split; [exact A1|]. intros q fc u Q. exact (A2 (CV q) fc u (PC q Q)).
Qed.
End Units.
