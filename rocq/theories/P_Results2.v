(** * P_Results2: the frames of C74 with their labels, and for the states of a run *)
From Coq Require Import Lia.
From Verif Require Import PyBase PyBaseFacts Num M_Gas M_Forcing M_Carbon M_CarbonBack M_Driver M_Results Spec_Reader Spec_Results P_Results.
From Verif Require P_Input2.

Section Any.
Context {A : Type} {N : Num A}.

Lemma label_inj (ks : list string) k k' : ~ In "SO4_DIR" ks -> In k ks -> In k' ks -> forcing_label k = forcing_label k' -> k = k'.
Proof.
  unfold forcing_label. intros NI I I'. destruct (String.eqb_spec k "SO2"), (String.eqb_spec k' "SO2"); intros H; try congruence; subst; contradiction.
Qed.
Lemma dget_rename (d : dict (list A)) k : ~ In "SO4_DIR" (dkeys d) -> In k (dkeys d) ->
  dget (map (fun kv : string * list A => (if String.eqb (fst kv) "SO2" then "SO4_DIR" else fst kv, snd kv)) d) (forcing_label k) = dget d k.
Proof.
  intros NI I.
  assert (G : forall d' : dict (list A), (forall k', In k' (dkeys d') -> In k' (dkeys d)) ->
    dget (map (fun kv : string * list A => (if String.eqb (fst kv) "SO2" then "SO4_DIR" else fst kv, snd kv)) d') (forcing_label k) = dget d' k).
  { induction d' as [|[k1 v1] d' IH]; intros S; [reflexivity|]. cbn [map fst snd dget].
    change (if String.eqb k1 "SO2" then "SO4_DIR" else k1) with (forcing_label k1).
    destruct (String.eqb_spec k1 k) as [->|NE]; [rewrite String.eqb_refl; reflexivity|].
    destruct (String.eqb_spec (forcing_label k1) (forcing_label k)) as [E|_].
    - exfalso. apply NE. apply (label_inj (dkeys d)); [exact NI|apply S; left; reflexivity|exact I|exact E].
    - apply IH. intros k' I'. apply S. right; exact I'. }
  apply G. auto.
Qed.
Lemma NoDup_map_label (l : list string) : ~ In "SO4_DIR" l -> NoDup l -> NoDup (map forcing_label l).
Proof.
  intros NI ND. induction ND as [|x l NX ND IH]; [constructor|]. cbn [map]. constructor.
  - intros I. apply in_map_iff in I. destruct I as [y [E I]]. assert (y = x) by (apply (label_inj (x :: l)); cbn; auto). subst. contradiction.
  - apply IH. intros I; apply NI; right; exact I.
Qed.

Lemma c74_forcing (p : hpam A) st erf f cs last :
  NoDup (dkeys (s_forc st) ++ "Year" :: dkeys (fr_cols erf)) -> ~ In "TOT_vanilla" (dkeys (s_forc st) ++ dkeys (fr_cols erf)) ->
  ~ In "SO4_DIR" (dkeys (s_forc st) ++ dkeys (fr_cols erf)) -> dkeys (fr_cols erf) = cs ++ [last] -> forcing_frame p st erf = Ok f ->
  fr_index f = years_of p /\ dkeys (fr_cols f) = forcing_columns (dkeys (s_forc st)) cs last /\ NoDup (dkeys (fr_cols f)) /\
  dget (fr_cols f) "Year" = Some (year_values (nystart p) (nyend p)) /\
  (forall k, In k (dkeys (s_forc st)) -> dget (fr_cols f) (forcing_label k) = dget (s_forc st) k) /\
  (forall k, In k (dkeys (fr_cols erf)) -> dget (fr_cols f) (forcing_label k) = dget (fr_cols erf) k).
Proof.
  intros ND NT NS KE H. destruct (forcing_spec p st erf f cs last ND NT KE H) as [I [I' [K [_ [g [E [W [KG [GY [GF GE]]]]]]]]]].
  assert (NS' : ~ In "SO4_DIR" (dkeys (fr_cols g))).
  { rewrite KG. intros X. apply NS. rewrite KE. cbn [In] in X. rewrite !in_app_iff in *. cbn [In] in *. destruct X as [X|[X|[X|X]]]; auto. discriminate X. }
  assert (AllIn : forall k, In k (dkeys (s_forc st)) \/ k = "Year" \/ In k (dkeys (fr_cols erf)) -> In k (dkeys (fr_cols g))).
  { intros k Hk. rewrite KG. rewrite KE in Hk. cbn [In]. rewrite !in_app_iff in *. cbn [In] in *. intuition. }
  assert (ND' : NoDup (dkeys (fr_cols f))).
  { rewrite K. unfold forcing_columns. rewrite <- KG. apply NoDup_map_label; [exact NS'|exact W]. }
  split; [exact I|]. split; [exact K|]. split; [exact ND'|]. subst f. unfold rename_col. cbn [fr_cols]. split; [|split].
  - change "Year" with (forcing_label "Year"). rewrite dget_rename; [exact GY|exact NS'|apply AllIn; auto].
  - intros k Ik. rewrite dget_rename; [apply GF; exact Ik|exact NS'|apply AllIn; auto].
  - intros k Ik. rewrite dget_rename; [apply GE; exact Ik|exact NS'|apply AllIn; auto].
Qed.

(** The columns of [self.forc] in a run: the gases without precalculated forcing, and the total *)
Lemma reset_columns (p : hpam A) gt erf : ~ In "Total_forcing" (dkeys gt) ->
  dkeys (s_forc (reset_arrays p gt erf)) = filter (fun k => negb (String.eqb k "CO2.1") && negb (dmem (fr_cols erf) k)) (dkeys gt) ++ ["Total_forcing"].
Proof.
  intros NT. unfold reset_arrays, gases_spicy. cbn [s_forc].
  set (sp := filter _ (filter _ (dkeys gt))).
  assert (ES : sp = filter (fun k => negb (String.eqb k "CO2.1") && negb (dmem (fr_cols erf) k)) (dkeys gt)).
  { unfold sp. generalize (dkeys gt) as l. induction l as [|k l IH]; [reflexivity|]. cbn [filter].
    destruct (dmem (fr_cols erf) k); cbn [negb]; rewrite ?andb_false_r, ?andb_true_r; [exact IH|]. cbn [filter].
    destruct (negb (String.eqb k "CO2.1")); [f_equal|]; exact IH. }
  set (d := map (fun k => (k, tab (List.length (years_of p)) (fun _ => nofZ 0))) sp).
  assert (KD : dkeys d = sp) by (unfold dkeys, d; rewrite map_map; apply map_id).
  rewrite dset_new; [rewrite dkeys_app, KD, ES; reflexivity|]. apply dmem_not_in. rewrite KD, ES. intros I. apply filter_In in I. tauto.
Qed.
Lemma c74_run (p : hpam A) gt erf st f cs last : wf gt -> wf (fr_cols erf) -> (forall k, In k reserved -> ~ In k (dkeys gt) /\ ~ In k (dkeys (fr_cols erf))) ->
  dkeys (s_forc st) = dkeys (s_forc (reset_arrays p gt erf)) -> dkeys (fr_cols erf) = cs ++ [last] -> forcing_frame p st erf = Ok f ->
  fr_index f = years_of p /\
  dkeys (fr_cols f) = forcing_columns (filter (fun k => negb (String.eqb k "CO2.1") && negb (dmem (fr_cols erf) k)) (dkeys gt) ++ ["Total_forcing"]) cs last /\
  NoDup (dkeys (fr_cols f)) /\ dget (fr_cols f) "Year" = Some (year_values (nystart p) (nyend p)) /\
  (forall k, In k (dkeys (s_forc st)) -> dget (fr_cols f) (forcing_label k) = dget (s_forc st) k) /\
  (forall k, In k (dkeys (fr_cols erf)) -> dget (fr_cols f) (forcing_label k) = dget (fr_cols erf) k).
Proof.
  intros Wg We RS KS KE H. rewrite (reset_columns p gt erf) in KS by (apply RS; cbn; auto). rewrite <- KS.
  assert (NR : forall k, In k ["Year"; "TOT_vanilla"; "SO4_DIR"] -> ~ In k (dkeys (s_forc st))).
  { intros k Ik X. rewrite KS, in_app_iff in X. destruct X as [X|[X|[]]].
    - apply filter_In in X. apply (proj1 (RS k ltac:(cbn in *; tauto))). tauto.
    - subst k. cbn in Ik. destruct Ik as [X|[X|[X|[]]]]; discriminate X. }
  apply c74_forcing; try assumption.
  - apply NoDup_Add with (a := "Year") (l := dkeys (s_forc st) ++ dkeys (fr_cols erf)); [apply Add_app|]. split.
    + rewrite KS, <- app_assoc. cbn [app]. apply NoDup_Add with (a := "Total_forcing") (l := filter (fun k => negb (String.eqb k "CO2.1") && negb (dmem (fr_cols erf) k)) (dkeys gt) ++ dkeys (fr_cols erf)); [apply Add_app|]. split.
      * assert (Q : forall l, NoDup l -> NoDup (filter (fun k => negb (String.eqb k "CO2.1") && negb (dmem (fr_cols erf) k)) l ++ dkeys (fr_cols erf))).
        { induction l as [|k l IH]; intros ND; [exact We|]. inversion ND; subst. cbn [filter].
          destruct (negb (String.eqb k "CO2.1") && negb (dmem (fr_cols erf) k)) eqn:C; [|apply IH; assumption].
          cbn [app]. constructor; [|apply IH; assumption]. rewrite in_app_iff. intros [X|X]; [apply filter_In in X; tauto|].
          apply andb_true_iff in C. destruct C as [_ C]. apply dget_In_keys in X. rewrite X in C. discriminate C. }
        apply Q. exact Wg.
      * rewrite in_app_iff. destruct (RS "Total_forcing" ltac:(cbn; auto)) as [R1 R2]. intros [X|X]; [apply filter_In in X; tauto|contradiction].
    + rewrite in_app_iff. intros [X|X]; [revert X; apply NR; cbn; auto|revert X; apply RS; cbn; auto].
  - rewrite in_app_iff. intros [X|X]; [revert X; apply NR; cbn; auto|revert X; apply RS; cbn; auto].
  - rewrite in_app_iff. intros [X|X]; [revert X; apply NR; cbn; auto|revert X; apply RS; cbn; tauto].
Qed.

Lemma zlast_split l x : zlast l = Ok x -> exists b, l = b ++ [x].
Proof.
  unfold zlast. destruct (rev l) as [|y r] eqn:E; [discriminate|]. intros H. inversion H; subst. exists (rev r).
  rewrite <- (rev_involutive l), E. reflexivity.
Qed.
Lemma years_last (p : hpam A) x : zlast (years_of p) = Ok x -> x = nyend p.
Proof.
  intros H. apply zlast_split in H. destruct H as [b H]. unfold years_of in H.
  destruct (Z.to_nat (nyend p - nystart p + 1)) as [|n] eqn:E; [destruct b; discriminate H|].
  assert (L := f_equal (fun l => List.last l 0%Z) H). cbv beta in L. rewrite P_Input2.zrange_last, last_last in L. lia.
Qed.
Lemma c74_emissions (p : hpam A) emis f : wf (fr_cols emis) -> rectangular emis ->
  ~ In "Year" (dkeys (fr_cols emis)) -> ~ In "CO2" (dkeys (fr_cols emis)) -> emission_frame p emis = Ok f ->
  dkeys (fr_cols f) = emission_columns (dkeys (fr_cols emis)) /\
  List.length (fr_index f) = List.length (years_of p) /\ dget (fr_cols f) "Year" = Some (year_values (nystart p) (nyend p)) /\
  (exists before final, fr_index emis = before ++ [final] /\
     forall y, In y (fr_index f) <-> In y (fr_index emis) /\ ~ (nyend p < y <= final)%Z) /\
  (forall y, In y (fr_index f) -> exists ff af, fr_get emis "CO2_FF" y = Ok ff /\ fr_get emis "CO2_AFOLU" y = Ok af /\ fr_get f "CO2" y = Ok (ff + af)%num) /\
  (forall y k, In y (fr_index f) -> In k (dkeys (fr_cols emis)) -> not_split k = true -> fr_get f k y = fr_get emis k y).
Proof.
  intros W R NY NC H. destruct (emission_spec p emis f W R NY NC H) as [H1 [H2 [H3 [[l [e [L [E I]]]] [H5 H6]]]]].
  split; [exact H1|]. split; [exact H2|]. split; [exact H3|]. split; [|split; assumption].
  apply years_last in L. apply zlast_split in E. destruct E as [b E]. exists b, e. split; [exact E|]. subst l. exact I.
Qed.
End Any.
