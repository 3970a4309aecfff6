(** * P_Box4: the fluxes reported by a run with the box carbon cycle (C93) *)
From Coq Require Import Reals Lra Lia.
From Verif Require Import PyBase PyBaseFacts Num M_Gas M_Forcing M_Carbon M_CarbonBox M_Driver M_Results M_BoxRun Spec_Gas Spec_Driver Spec_Reader Spec_Results Spec_Coupled Spec_UDM Spec_Carbon Spec_Box
  P_CarbonMisc P_Box P_Box3.
Open Scope R_scope.

Lemma after_S p s ins k i : nth_error ins k = Some i ->
  fst (box_run p s (firstn (S k) ins)) = fst (box_year p (fst (box_run p s (firstn k ins))) (fst i) (snd i)).
Proof.
  revert s ins. induction k as [|k IH]; intros s [|[em t] ins] H; try discriminate H.
  - inversion H; subst. cbn [firstn box_run fst snd]. destruct (box_year p s em t); reflexivity.
  - cbn [nth_error] in H. cbn [firstn box_run]. destruct (box_year p s em t) as [s1 c1]. specialize (IH s1 ins H). cbn [firstn] in IH.
    destruct (box_run p s1 _) as [s2 c2]. destruct (box_run p s1 (firstn k ins)) as [s3 c3]. cbn [fst] in *. exact IH.
Qed.
Lemma conc_after p s ins k : (k < List.length ins)%nat -> nth_error (snd (box_run p s ins)) k = Some (atm (fst (box_run p s (firstn (S k) ins)))).
Proof.
  revert s ins. induction k as [|k IH]; intros s [|[em t] ins] H; cbn [List.length] in H; try lia.
  - cbn [firstn box_run]. destruct (box_step p s em t) as (_ & _ & _ & _ & _ & C). destruct (box_year p s em t) as [s1 c1]. destruct (box_run p s1 ins). cbn [fst snd nth_error] in *. congruence.
  - specialize (fun s1 => IH s1 ins ltac:(lia)). change (firstn (S (S k)) ((em, t) :: ins)) with ((em, t) :: firstn (S k) ins). cbn [box_run]. destruct (box_year p s em t) as [s1 c1]. specialize (IH s1).
    destruct (box_run p s1 ins) as [s2 c2]. destruct (box_run p s1 (firstn (S k) ins)) as [s3 c3]. cbn [fst snd nth_error] in *. exact IH.
Qed.
Lemma map2_nth {X Y V} (f : X -> Y -> V) : forall l m k x y, nth_error l k = Some x -> nth_error m k = Some y -> nth_error (map2 f l m) k = Some (f x y).
Proof.
  intros l. induction l as [|a l IH]; intros [|b m] [|k] x y H H'; try discriminate.
  - inversion H; inversion H'; subst. reflexivity.
  - exact (IH m k x y H H').
Qed.
Lemma map2_len {X Y V} (f : X -> Y -> V) : forall l m, List.length l = List.length m -> List.length (map2 f l m) = List.length l.
Proof. intros l. induction l as [|a l IH]; intros [|b m] H; try discriminate; [reflexivity|]. cbn [map2 combine map List.length] in *. unfold map2 in IH. rewrite IH; lia. Qed.

Lemma c93 {T} nan bp sc (th : thermal R T) c gt t0 r out g : d_rf c = None -> conc_run (c_p sc) = false -> d_start c = nystart (c_p sc) -> d_end c = nyend (c_p sc) ->
  distinct_outputs (t_names th) -> dget (t_names th) "dT_glob" = Some "dtemp" -> get_first_key (t_names th) "dtemp" = Ok "dT_glob" ->
  wf gt -> dget gt "CO2" = Some g -> g_unit g <> "-" -> dmem (fr_cols (c_erf sc)) "CO2" = false ->
  wf (fr_cols (c_pc sc)) -> (forall k, In k (dkeys (fr_cols (c_pc sc))) -> dmem (fr_cols (c_erf sc)) k = true) -> (exists k, In k (dkeys (fr_cols (c_pc sc)))) ->
  ~ In "Year" (dkeys gt ++ dkeys (fr_cols (c_pc sc))) ->
  box_coupled_run nan bp sc th c gt t0 true true r = out -> o_exn out = None ->
  exists temp ins conc npp flux, in_array (o_results out) "dT_glob" temp /\ co2_drivers (c_emis sc) g temp (nystart (c_p sc)) (d_years c) ins /\
    in_frame (o_results out) "concentrations" "CO2" conc /\ in_frame (o_results out) "carbon cycle" "Net primary production" npp /\
    in_frame (o_results out) "carbon cycle" "Ocean carbon flux" flux /\
    List.length conc = d_years c /\ List.length npp = d_years c /\ List.length flux = d_years c /\
    let state k := fst (box_run bp box_init (firstn k ins)) in
    forall k, (k < d_years c)%nat ->
      nth k conc 0 = atm (state (S k)) /\
      nth k npp 0 = production bp (nth k conc 0) (nth k temp 0) /\
      nth k flux 0 = ocean_rate bp (nth k temp 0) * (nth k conc 0 - 278) /\
      ((S k < d_years c)%nat -> ocean (state (S (S k))) - ocean (state (S k)) = nth k flux 0 /\
         veg (state (S (S k))) - (1 - b_veg_frac bp) * veg (state (S k)) = nth k npp 0) /\
      pgc * (nth k conc 0 - 278) + (veg (state (S k)) + soil (state (S k)) - 3600) + sumn (fun i => nth i flux 0) k = total (map fst (firstn (S k) ins)).
Proof.
  intros RF CR DS DE DO DN GF W G U M WP PE NE NY E X.
  destruct (c93_frame nan bp sc th c gt t0 r out g RF CR DS DE DO DN GF W G U M WP PE NE NY E X) as [temp [ins [cd [ff [af (A1 & A2 & A3 & A4 & A5 & A6 & A7 & A8 & _ & _ & A9)]]]]].
  set (conc := snd (box_run bp box_init ins)) in *.
  set (npp := npp_series bp temp conc) in *. set (flux := uptake_series bp temp conc) in *.
  exists temp, ins, conc, npp, flux. split; [exact A1|]. split; [exact A4|]. split; [exact A6|].
  split; [exists cd; split; [exact A8|]; rewrite A9; reflexivity|]. split; [exists cd; split; [exact A8|]; rewrite A9; reflexivity|].
  assert (LL : List.length temp = List.length conc) by congruence.
  split; [exact A5|]. split; [unfold npp, npp_series; rewrite map2_len; congruence|]. split; [unfold flux, uptake_series; rewrite map2_len; congruence|].
  cbv zeta. set (state k := fst (box_run bp box_init (firstn k ins))).
  assert (NT : forall k, (k < d_years c)%nat -> nth_error temp k = Some (nth k temp 0)) by (intros k L; apply nth_error_nth'; lia).
  assert (NC : forall k, (k < d_years c)%nat -> nth_error conc k = Some (nth k conc 0)) by (intros k L; apply nth_error_nth'; lia).
  assert (C1 : forall k, (k < d_years c)%nat -> nth k conc 0 = atm (state (S k))).
  { intros k L. apply nth_error_nth. apply conc_after. lia. }
  assert (C2 : forall k, (k < d_years c)%nat -> nth k npp 0 = production bp (nth k conc 0) (nth k temp 0)).
  { intros k L. unfold npp, npp_series. rewrite (nth_error_nth _ _ _ (map2_nth _ _ _ _ _ _ (NT k L) (NC k L))). unfold production. rnum.
    unfold Rmax. destruct (Rlt_dec _ _), (Rle_dec _ _); try reflexivity; lra. }
  assert (C3 : forall k, (k < d_years c)%nat -> nth k flux 0 = ocean_rate bp (nth k temp 0) * (nth k conc 0 - 278)).
  { intros k L. unfold flux, uptake_series. rewrite (nth_error_nth _ _ _ (map2_nth _ _ _ _ _ _ (NT k L) (NC k L))). unfold ocean_rate. rnum. reflexivity. }
  assert (NX : forall k, (S k < d_years c)%nat -> exists em, state (S (S k)) = fst (box_year bp (state (S k)) em (nth k temp 0))).
  { intros k L. destruct A4 as [_ A4]. destruct (A4 (S k) L) as [ff' [af' [_ [_ I]]]]. eexists. unfold state. rewrite (after_S bp box_init ins (S k) _ I). cbn [fst snd last_year]. reflexivity. }
  assert (C4 : forall k, (S k < d_years c)%nat -> ocean (state (S (S k))) - ocean (state (S k)) = nth k flux 0 /\
         veg (state (S (S k))) - (1 - b_veg_frac bp) * veg (state (S k)) = nth k npp 0).
  { intros k L. destruct (NX k L) as [em Q]. rewrite Q. destruct (box_step bp (state (S k)) em (nth k temp 0)) as (_ & B2 & _ & B4 & B5 & _). cbv zeta in *.
    unfold ocean. rewrite B2, B4, B5, (C2 k), (C3 k), (C1 k) by lia. split; ring. }
  assert (O : forall k, (k < d_years c)%nat -> ocean (state (S k)) = sumn (fun i => nth i flux 0) k).
  { induction k as [|k IH]; intros L.
    - cbn [sumn]. destruct A4 as [_ A4]. destruct (A4 0%nat L) as [ff' [af' [_ [_ I]]]]. unfold state. rewrite (after_S bp box_init ins 0 _ I). cbn [firstn box_run fst snd].
      match goal with |- ocean (fst (box_year _ _ ?e ?d)) = _ => destruct (box_step bp box_init e d) as (_ & _ & _ & B4 & B5 & _) end. cbv zeta in *. unfold ocean. rewrite B4, B5. unfold box_init. cbn [atm omix odeep]. rnum. ring.
    - cbn [sumn]. rewrite <- IH by lia. destruct (C4 k L) as [Y _]. lra. }
  intros k L. split; [exact (C1 k L)|]. split; [exact (C2 k L)|]. split; [exact (C3 k L)|]. split; [exact (C4 k)|].
  assert (B := box_run_total bp (firstn (S k) ins) box_init). fold (state (S k)) in B. rewrite <- (O k L). rewrite (C1 k L). unfold box_total, ocean in *. unfold box_init in B at 1 2 3 4 5. cbn [atm veg soil omix odeep] in B.
  rnum. lra.
Qed.
