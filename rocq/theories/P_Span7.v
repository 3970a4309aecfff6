(** * P_Span7: the carbon frame of concentration runs of different lengths with the box carbon cycle (C91) *)
From Coq Require Import Reals Lia.
From Verif Require Import PyBase PyBaseFacts Num M_Gas M_Forcing M_Carbon M_CarbonBox M_Driver M_Results M_BoxRun Spec_Driver Spec_Reader Spec_Results Spec_Coupled Spec_Span Spec_Share.
From Verif Require P_Forc7 P_Coupled5 P_Coupled8 P_Span3 P_BoxGiven.
Close Scope R_scope.

Lemma box_given_frame T nan (bp : box_pam R) (th : thermal R T) gt t0 M sc sc' c c' r r' out out' g :
  agree_span M sc sc' c c' -> prepared gt sc -> prepared gt sc' -> wf gt ->
  (forall k, In k reserved -> ~ In k (dkeys gt)) -> distinct_outputs (t_names th) ->
  (forall k, In k ["emissions"; "concentrations"; "forcing"; "carbon cycle"] -> ~ In k (output_names (t_names th))) ->
  dget (t_names th) "dT_glob" = Some "dtemp" -> get_first_key (t_names th) "dtemp" = Ok "dT_glob" -> dget gt "CO2" = Some g -> g_unit g <> "-" ->
  dmem (fr_cols (c_conc sc)) "CO2" = true -> conc_run (c_p sc) = true ->
  box_coupled_run nan bp sc th c gt t0 true true r = out -> box_coupled_run nan bp sc' th c' gt t0 true true r' = out' -> o_exn out = None -> o_exn out' = None ->
  exists f f', dget (o_results out) "carbon cycle" = Some (Fr f) /\ dget (o_results out') "carbon cycle" = Some (Fr f') /\
    dkeys (fr_cols f) = ["Net primary production"; "Ocean carbon flux"] /\ dkeys (fr_cols f') = dkeys (fr_cols f) /\
    forall k v v', dget (fr_cols f) k = Some v -> dget (fr_cols f') k = Some v' -> List.length v = d_years c /\ List.length v' = d_years c' /\ rows_agree M v v'.
Proof.
  intros U P P' W RS DO NF TD FK GC GU DM CR E E' X X'.
  destruct (P_Span3.c91_box nan th gt t0 bp M sc sc' c c' true true r r' out out' U (or_introl CR) P P' W RS DO NF E E' X X') as (AR & _ & _).
  assert (HY : forall sc0, prepared gt sc0 -> dmem (fr_cols (c_erf sc0)) "CO2" = false).
  { intros sc0 [PO _ _ _]. destruct (P_Forc7.c39_columns _ _ _ _ _ _ _ PO) as [C1 [C2 _]].
    destruct (dmem (fr_cols (c_erf sc0)) "CO2") eqn:D; [|reflexivity]. apply dget_In_keys in D. apply C2 in D as [D|D]; [|discriminate D]. apply C1 in D as (g0 & _ & NI & _). exfalso. apply NI. now left. }
  assert (CR' : conc_run (c_p sc') = true) by (rewrite (sp_p _ _ _ _ _ U); exact CR).
  assert (NS : nystart (c_p sc') = nystart (c_p sc)) by (rewrite (sp_p _ _ _ _ _ U); reflexivity).
  assert (SA : d_start c' = nystart (c_p sc')) by (rewrite NS; apply (sp_start' _ _ _ _ _ U)).
  destruct (sp_conc _ _ _ _ _ U) as [KK AG].
  assert (DM' : dmem (fr_cols (c_conc sc')) "CO2" = true) by (rewrite <- (P_Coupled5.keys_dmem _ _ "CO2" KK); exact DM).
  destruct (P_BoxGiven.c106_box_given nan bp sc th c gt t0 r out g (proj1 (sp_coupled _ _ _ _ _ U)) CR (sp_start _ _ _ _ _ U) (sp_end _ _ _ _ _ U) DO TD FK W GC GU (HY _ P) DM E X)
    as (temp & conc & npp & flux & cd & T1 & _ & [LC T2] & T3 & _ & T4 & L1 & L2 & Z1 & _).
  destruct (P_BoxGiven.c106_box_given nan bp sc' th c' gt t0 r' out' g (proj2 (sp_coupled _ _ _ _ _ U)) CR' SA (sp_end' _ _ _ _ _ U) DO TD FK W GC GU (HY _ P') DM' E' X')
    as (temp' & conc' & npp' & flux' & cd' & T1' & _ & [LC' T2'] & T3' & _ & T4' & L1' & L2' & Z1' & _).
  assert (LM := sp_rows _ _ _ _ _ U). assert (LM' := sp_rows' _ _ _ _ _ U). rewrite NS in T2'.
  destruct (AR "dT_glob") as (v & v' & V & V' & _ & _ & RT). { unfold output_names. apply in_or_app. left. apply dget_In_keys, dmem_true. eauto. }
  assert (v = temp) as -> by (unfold in_array in *; congruence). assert (v' = temp') as -> by (unfold in_array in *; congruence).
  assert (AT : forall i, (i <= M)%nat -> nth i temp 0%R = nth i temp' 0%R).
  { intros i Li. specialize (RT i Li). destruct (nth_error temp i) as [x|] eqn:N1.
    - rewrite (nth_error_nth _ _ _ N1), (nth_error_nth temp' i 0%R (eq_sym RT)). reflexivity.
    - symmetry in RT. apply nth_error_None in N1. apply nth_error_None in RT. now rewrite !nth_overflow. }
  assert (AC : forall i, (i <= M)%nat -> nth i conc 0%R = nth i conc' 0%R).
  { intros i Li. assert (Q := T2 i _ (nth_error_nth' conc 0%R (n := i) ltac:(lia))). assert (Q' := T2' i _ (nth_error_nth' conc' 0%R (n := i) ltac:(lia))).
    rewrite <- (AG "CO2" (nystart (c_p sc) + Z.of_nat i)%Z) in Q' by (left; lia). congruence. }
  assert (FR : forall l l' : list R, List.length l = d_years c -> List.length l' = d_years c' -> (forall i, (i <= M)%nat -> nth i l 0%R = nth i l' 0%R) -> rows_agree M l l').
  { intros l l' Ll Ll' Q i Li. rewrite (nth_error_nth' l 0%R) by lia. rewrite (nth_error_nth' l' 0%R) by lia. now rewrite (Q i Li). }
  exists cd, cd'. split; [exact T3|]. split; [exact T3'|]. rewrite T4, T4'. split; [reflexivity|]. split; [reflexivity|].
  intros k v v' G G'. cbn [dget] in G, G'. destruct (String.eqb "Net primary production" k); [|destruct (String.eqb "Ocean carbon flux" k); [|discriminate G]];
    injection G as <-; injection G' as <-; (split; [assumption|]); (split; [assumption|]); apply FR; try assumption; intros i Li;
    destruct (Z1 i ltac:(lia)) as [N1 N2]; destruct (Z1' i ltac:(lia)) as [N1' N2'].
  - rewrite N1, N1', (AT i Li), (AC i Li). reflexivity.
  - rewrite N2, N2', (AT i Li), (AC i Li). reflexivity.
Qed.
