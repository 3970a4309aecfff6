(** * P_Coupled3: the total in the results of a coupled run (C83) *)
From Coq Require Import Reals Lra Lia.
From Verif Require Import PyBase PyBaseFacts Num M_Gas M_Forcing M_Carbon M_CarbonBack M_Driver M_Results M_BoxRun Spec_Gas Spec_Forc Spec_Driver Spec_Reader Spec_Results Spec_Coupled
  P_Gas3 P_Forc P_Forc4 P_Results P_Results2 P_Driver3 P_Coupled P_Coupled2 P_AnyCarbon.
From Verif Require P_Input2 P_Gas2.
Open Scope R_scope.

(** ** The calls of the handler as a run of the handler *)
Section Calls.
Variables (CC : Type) (year : CC -> nat -> R -> R -> CC * R) (sc : scenario R) (c : inst R).
Notation p := (c_p sc).
Lemma trace_run n h l h' : htrace c (any_emi2conc CC year sc) (any_conc2forc CC sc) n h l h' ->
  handler_run CC (option (dict R)) (fun cc y em fb => year cc (Z.to_nat (y - nystart p)) em (dtemp_of fb)) p (c_conc sc) (c_emis sc) (c_nat_ch4 sc) (c_nat_n2o sc) (c_erf sc) (c_pert sc)
    (d_start c + Z.of_nat n) (map fst l) (fst h) (snd h) = Ok (map snd l, snd h').
Proof.
  intros T. induction T as [n h|n h fb luc sun q h1 h2 l h3 E1 _ _ E2 T IH]; [reflexivity|].
  cbn [map fst snd handler_run]. unfold handler_year. unfold any_emi2conc in E1. rewrite E1. cbn [rbind].
  unfold any_conc2forc in E2. destruct (conc2forc _ _ _ _ _ _ _ _ (snd h1)) as [[q' st2]|]; cbn [rbind fst snd] in E2 |- *; [|discriminate]. inversion E2; subst h2 q'.
  cbn [fst snd] in IH. replace (d_start c + Z.of_nat n + 1)%Z with (d_start c + Z.of_nat (Datatypes.S n))%Z by lia. rewrite IH. reflexivity.
Qed.
End Calls.

(** ** Sums over the columns of the forcing frame *)
Lemma sum_dict (d : dict (list R)) (k : nat) : wf d -> fold_right (fun cv s => nth k (snd cv) 0 + s) 0 d = sum_over (fun c => forc_at d c k) (dkeys d).
Proof.
  induction d as [|[c v] d IH]; intros W; [reflexivity|]. inversion W; subst. cbn [fold_right snd dkeys map fst sum_over]. f_equal.
  - unfold forc_at. cbn [dget]. rewrite String.eqb_refl. reflexivity.
  - change (map fst d) with (dkeys d). rewrite IH by assumption. apply sum_over_ext. intros x I. unfold forc_at. cbn [dget].
    destruct (String.eqb_spec c x); [subst; contradiction|]. reflexivity.
Qed.
Lemma sum_over_app g a b : sum_over g (a ++ b) = sum_over g a + sum_over g b.
Proof. induction a as [|x a IH]; cbn [app sum_over]; [lra|rewrite IH; lra]. Qed.
Lemma sum_over_map g f l : sum_over g (map f l) = sum_over (fun k => g (f k)) l.
Proof. induction l as [|x l IH]; [reflexivity|]. cbn [map sum_over]. rewrite IH. reflexivity. Qed.
Lemma wf_filter {V} (b : string * V -> bool) (d : dict V) : wf d -> wf (filter b d).
Proof.
  unfold wf. induction d as [|[k v] d IH]; intros W; [exact W|]. cbn [dkeys map fst] in W. inversion W; subst. cbn [filter].
  destruct (b (k, v)); [|auto]. cbn [dkeys map fst]. constructor; [|auto]. intros I. apply in_map_iff in I. destruct I as [[k' v'] [E I]]. cbn in E. subst k'.
  apply filter_In in I. apply H1. change k with (fst (k, v')). apply in_map. tauto.
Qed.

Lemma cell_row (fr : frame R) k start n : fr_index fr = zrange start n -> forall j, (j < n)%nat ->
  Spec_Forc.cell fr k (start + Z.of_nat j) = match dget (fr_cols fr) k with Some v => nth j v 0 | None => 0 end.
Proof.
  intros H j L. unfold Spec_Forc.cell, fr_get, fr_col, key. destruct (dget (fr_cols fr) k) as [v|]; cbn [rbind]; [|reflexivity]. rewrite H. clear H.
  revert start v j L. induction n as [|n IH]; intros start v j L; [lia|].
  assert (ZR : zrange start (S n) = start :: zrange (start + 1) n).
  { unfold zrange. cbn [seq map]. rewrite Z.add_0_r. f_equal. rewrite <- seq_shift, map_map. apply map_ext. intros i. lia. }
  rewrite ZR. destruct v as [|x v]; [destruct j; reflexivity|]. cbn [combine yget].
  destruct j as [|j].
  - replace (start + Z.of_nat 0)%Z with start by lia. rewrite Z.eqb_refl. reflexivity.
  - destruct (Z.eqb_spec start (start + Z.of_nat (S j))); [lia|]. cbn [nth]. rewrite <- (IH (start + 1)%Z v j) by lia.
    replace (start + 1 + Z.of_nat j)%Z with (start + Z.of_nat (S j))%Z by lia. reflexivity.
Qed.

Lemma label_total k : forcing_label k = TOTAL -> k = TOTAL.
Proof. unfold forcing_label. destruct (String.eqb_spec k "SO2"); [intros X; discriminate X|auto]. Qed.
Lemma label_year k : forcing_label k = "Year" -> k = "Year".
Proof. unfold forcing_label. destruct (String.eqb_spec k "SO2"); [intros X; discriminate X|auto]. Qed.

Section Run.
Context {T : Type}.
Variables (nan : R) (CC : Type) (year : CC -> nat -> R -> R -> CC * R) (data : CC -> hst R -> dict (list R) -> result (CC * frame R)).
Variables (sc : scenario R) (th : thermal R T) (c : inst R) (gt : dict (gas R)) (t0 : T) (cc0 : CC).
Notation p := (c_p sc).
Notation RUN := (any_run nan CC year data sc th c gt t0 cc0).

Lemma frame_sum st f cs last j : wf gt -> wf (fr_cols (c_erf sc)) ->
  (forall k, In k reserved -> ~ In k (dkeys gt) /\ ~ In k (dkeys (fr_cols (c_erf sc)))) ->
  dkeys (s_forc st) = dkeys (s_forc (reset_arrays p gt (c_erf sc))) -> dkeys (fr_cols (c_erf sc)) = cs ++ [last] ->
  forcing_frame p st (c_erf sc) = Ok f -> (j < List.length (years_of p))%nat ->
  row_sum f j = reported_sum (s_forc st) (c_erf sc) j (nystart p + Z.of_nat j).
Proof.
  intros Wg We RS KS KE F Lj.
  destruct (c74_run p gt (c_erf sc) st f cs last Wg We RS KS KE F) as [_ [KF [ND [_ [V1 V2]]]]].
  assert (KS' := KS). rewrite (reset_columns p gt (c_erf sc)) in KS' by (apply RS; cbn; auto). rewrite <- KS' in KF.
  assert (IX : fr_index (c_erf sc) = years_of p).
  { unfold forcing_frame in F. destruct (make_frame _ _) as [f1|] eqn:E1; cbn [rbind] in F; [|discriminate].
    destruct (set_col f1 _ _) as [f2|] eqn:E2; cbn [rbind] in F; [|discriminate].
    unfold make_frame in E1. destruct (forallb _ _); [|discriminate]. inversion E1; subst f1. unfold set_col in E2. cbn [fr_index] in E2.
    destruct (Nat.eqb _ _); [|discriminate]. inversion E2; subst f2. unfold concat_cols in F. cbn [fr_index with_tot_vanilla] in F.
    unfold zlist_eqb in F. destruct (list_eq_dec Z.eq_dec (years_of p) (fr_index (c_erf sc))); [congruence|discriminate]. }
  assert (NY : forall k, In k (dkeys (s_forc st)) \/ In k (dkeys (fr_cols (c_erf sc))) -> k <> "Year").
  { intros k [I|I] ->; [|revert I; apply RS; cbn; auto]. rewrite KS', in_app_iff in I. destruct I as [I|[I|[]]]; [|discriminate I].
    apply filter_In in I. apply (proj1 (RS "Year" ltac:(cbn; auto))). tauto. }
  assert (NT : forall k, In k (dkeys (fr_cols (c_erf sc))) -> k <> TOTAL).
  { intros k I ->. revert I. apply RS. cbn; auto. }
  set (b := fun k => negb (String.eqb k "Year" || String.eqb k "Total_forcing")).
  unfold row_sum, parts. change (fun cv : string * list R => negb (String.eqb (fst cv) "Year" || String.eqb (fst cv) "Total_forcing")) with (fun cv : string * list R => b (fst cv)).
  rewrite sum_dict by (apply wf_filter; exact ND).
  assert (KK : dkeys (filter (fun cv : string * list R => b (fst cv)) (fr_cols f)) = filter b (dkeys (fr_cols f))) by (apply dkeys_filter).
  rewrite KK. rewrite (sum_over_ext _ (fun k => forc_at (fr_cols f) k j)).
  2:{ intros k I. apply filter_In in I. unfold forc_at. rewrite dget_filter_key. destruct I as [_ I]. rewrite I. reflexivity. }
  rewrite sum_over_filter, KF. unfold forcing_columns. rewrite sum_over_map. cbn [sum_over]. rewrite sum_over_app. cbn [sum_over].
  unfold reported_sum, components. rewrite sum_over_filter.
  assert (BE : forall k, In k (dkeys (fr_cols (c_erf sc))) -> (if b (forcing_label k) then forc_at (fr_cols f) (forcing_label k) j else 0) = Spec_Forc.cell (c_erf sc) k (nystart p + Z.of_nat j)).
  { intros k I. assert (B : b (forcing_label k) = true).
    { unfold b. destruct (String.eqb_spec (forcing_label k) "Year") as [X|_]; [apply label_year in X; exfalso; eapply NY; eauto|].
      destruct (String.eqb_spec (forcing_label k) "Total_forcing") as [X|_]; [apply label_total in X; exfalso; eapply NT; eauto|]. reflexivity. }
    rewrite B. unfold forc_at. rewrite V2 by exact I. unfold years_of in IX, Lj. rewrite P_Input2.zrange_length in Lj.
    rewrite (cell_row (c_erf sc) k _ _ IX j Lj). reflexivity. }
  rewrite BE by (rewrite KE; apply in_or_app; right; left; reflexivity).
  rewrite (sum_over_ext (fun k => if b (forcing_label k) then forc_at (fr_cols f) (forcing_label k) j else 0) (fun k => Spec_Forc.cell (c_erf sc) k (nystart p + Z.of_nat j)) cs)
    by (intros k I; apply BE; rewrite KE; apply in_or_app; left; exact I).
  rewrite (sum_over_ext (fun k => if b (forcing_label k) then forc_at (fr_cols f) (forcing_label k) j else 0) (fun k => if negb (String.eqb k TOTAL) then forc_at (s_forc st) k j else 0) (dkeys (s_forc st))).
  2:{ intros k I. unfold forc_at. rewrite V1 by exact I. unfold b.
      destruct (String.eqb_spec (forcing_label k) "Year") as [X|_]; [apply label_year in X; exfalso; eapply NY; eauto|].
      destruct (String.eqb_spec k TOTAL) as [->|X]; [reflexivity|].
      destruct (String.eqb_spec (forcing_label k) "Total_forcing") as [Y|_]; [apply label_total in Y; contradiction|]. reflexivity. }
  replace (b (forcing_label "Year")) with false by reflexivity.
  rewrite KE, sum_over_app. cbn [sum_over]. lra.
Qed.

Lemma c83 carbon r out : d_rf c = None -> d_start c = nystart p -> d_end c = nyend p ->
  distinct_outputs (t_names th) -> dget (t_names th) "dT_glob" = Some "dtemp" ->
  wf gt -> wf (fr_cols (c_erf sc)) -> (exists k, In k (dkeys (fr_cols (c_erf sc)))) ->
  (forall k, In k reserved -> ~ In k (dkeys gt) /\ ~ In k (dkeys (fr_cols (c_erf sc)))) ->
  just_one p = None -> (forall y v, ~ In (y, TOTAL, v) (pert_rows (c_pert sc))) ->
  RUN true carbon r = out -> o_exn out = None ->
  exists f total, dget (o_results out) "forcing" = Some (Fr f) /\ in_array (o_results out) TOTAL total /\
    List.length total = d_years c /\ dget (fr_cols f) TOTAL = Some total /\
    forall k, (k < d_years c)%nat -> nth k total 0 = row_sum f k.
Proof.
  intros RF DS DE DO DN W WE NE RS JO PT E X.
  destruct (any_parts nan CC year data sc th c gt t0 cc0 carbon r out RF E X) as [s [series [fs [RY [AR [_ [OH OR]]]]]]].
  destruct (run_trace th c _ _ t0 _ r s DO RF DN RY) as [l [temp [HT [LL [_ [_ [TF _]]]]]]].
  assert (HR := trace_run CC year sc c _ _ _ _ HT). cbn [fst snd] in HR. rewrite DS in HR. cbn [Z.of_nat] in HR. rewrite Z.add_0_r in HR.
  assert (FI : fine (reset_arrays p gt (c_erf sc))).
  { apply reset_fine; [exact W|]. apply dmem_false. destruct (dmem gt TOTAL) eqn:M; [|reflexivity]. apply dget_In_keys in M. exfalso. revert M. apply RS. cbn; auto. }
  destruct (run_rows _ _ _ _ _ _ _ _ _ _ _ _ _ _ _ _ FI (Z.le_refl _) HR) as [[WS _] [KS _]].
  unfold any_add_results in AR.
  destruct (forcing_frame p (snd (l_h s)) (c_erf sc)) as [forc|] eqn:FF; cbn [rbind] in AR; [|discriminate].
  destruct (emission_frame p (c_emis sc)) as [em|]; cbn [rbind] in AR; [|discriminate].
  destruct (concentration_frame nan p (snd (l_h s)) (c_pc sc)) as [cf|]; cbn [rbind] in AR; [|discriminate]. cbv zeta in AR.
  assert (FS : exists rest, fs = [("emissions", em); ("concentrations", cf); ("forcing", forc)] ++ rest /\ (rest = [] \/ exists v, rest = [("carbon cycle", v)])).
  { destruct carbon; [|exists []; inversion AR; split; [reflexivity|left; reflexivity]].
    destruct (data (fst (l_h s)) (snd (l_h s)) series) as [cd|]; cbn [rbind] in AR; [|discriminate]. inversion AR.
    exists [("carbon cycle", snd cd)]. split; [reflexivity|]. right; eauto. }
  destruct FS as [rest [FS RS']].
  assert (WF : wf (map (fun kv : string * frame R => (fst kv, Fr (snd kv))) fs)).
  { rewrite FS. destruct RS' as [->|[v ->]]; apply nodupb_NoDup; reflexivity. }
  assert (GF : dget (o_results out) "forcing" = Some (Fr forc)).
  { rewrite OR, dget_dupdate by exact WF. rewrite FS. reflexivity. }
  assert (GT : dget (o_results out) TOTAL = Some (Arr (map total_of l))).
  { rewrite OR, dget_dupdate by exact WF. rewrite FS. destruct RS' as [->|[v ->]]; cbn; exact TF. }
  destruct (@exists_last _ (dkeys (fr_cols (c_erf sc)))) as [cs [last KE]].
  { destruct NE as [k I]. intros Q. rewrite Q in I. destruct I. }
  destruct (c74_run p gt (c_erf sc) (snd (l_h s)) forc cs last W WE RS KS KE FF) as [_ [_ [_ [_ [V1 _]]]]].
  assert (IT : In TOTAL (dkeys (s_forc (snd (l_h s))))).
  { rewrite KS, (reset_columns p gt (c_erf sc)) by (apply RS; cbn; auto). apply in_or_app. right. left. reflexivity. }
  assert (YL : List.length (years_of p) = d_years c).
  { unfold years_of, d_years. rewrite P_Input2.zrange_length, DS, DE. reflexivity. }
  assert (DT := IT). apply dget_In_keys, dmem_true in DT. destruct DT as [tv DT].
  assert (LT : List.length tv = d_years c).
  { rewrite <- YL. unfold forcing_frame in FF. destruct (make_frame _ _) as [f1|] eqn:E1; cbn [rbind] in FF; [|discriminate]. unfold make_frame in E1.
    destruct (forallb _ (s_forc (snd (l_h s)))) eqn:FA; [|discriminate]. rewrite forallb_forall in FA. specialize (FA (TOTAL, tv) (dget_Some_In _ _ _ DT)). cbn [snd] in FA.
    apply Nat.eqb_eq. exact FA. }
  assert (ROW : forall k, (k < d_years c)%nat -> nth k (map total_of l) 0 = reported_sum (s_forc (snd (l_h s))) (c_erf sc) k (nystart p + Z.of_nat k) /\ nth k tv 0 = nth k (map total_of l) 0).
  { intros k Lk. assert (Lk' : (k < List.length l)%nat) by lia. apply nth_error_Some in Lk'. destruct (nth_error l k) as [[x q]|] eqn:NX; [|congruence].
    destruct q as [[[tot nh] sh] w].
    assert (NO : nth_error (map snd l) k = Some (tot, nh, sh, w)) by (rewrite nth_error_map, NX; reflexivity).
    destruct (c44_run _ _ _ _ _ _ _ _ _ _ _ _ _ _ _ _ FI (Z.le_refl _) HR WE JO PT k tot nh sh w NO) as [T1 [T2 _]].
    assert (FX : forc_ix p (nystart p + Z.of_nat k) = k) by (unfold forc_ix; lia). rewrite FX in T1, T2.
    assert (NT : nth k (map total_of l) 0 = tot) by (apply nth_error_nth; rewrite nth_error_map, NX; reflexivity).
    rewrite NT. split; [exact T1|]. unfold forc_at in T2. rewrite DT in T2. exact T2. }
  assert (EQ : tv = map total_of l).
  { apply (nth_ext tv (map total_of l) 0 0); [rewrite map_length; lia|]. intros n Ln. apply ROW. lia. }
  exists forc, (map total_of l). split; [exact GF|]. split; [exact GT|]. split; [rewrite map_length; lia|]. split.
  - change TOTAL with (forcing_label TOTAL) at 1. rewrite V1 by exact IT. rewrite DT, EQ. reflexivity.
  - intros k Lk. rewrite (frame_sum (snd (l_h s)) forc cs last k W WE RS KS KE FF) by lia. apply ROW. exact Lk.
Qed.
End Run.
