(** * P_Span5: the carbon frame of runs of different lengths with the box carbon cycle (C91) *)
From Coq Require Import Reals Lia.
From Verif Require Import PyBase PyBaseFacts Num M_Gas M_Forcing M_Carbon M_CarbonBox M_Driver M_Results M_BoxRun Spec_Driver Spec_Reader Spec_Results Spec_Coupled Spec_Span.
From Verif Require P_Forc7 P_Coupled8 P_Span3 P_Box4.
Close Scope R_scope.

Lemma box_frame T nan (bp : box_pam R) (th : thermal R T) gt t0 M sc sc' c c' r r' out out' g :
  agree_span M sc sc' c c' -> same_source (c_p sc) (nyend (c_p sc')) (nystart (c_p sc) + Z.of_nat M) -> prepared gt sc -> prepared gt sc' -> wf gt ->
  (forall k, In k reserved -> ~ In k (dkeys gt)) -> distinct_outputs (t_names th) ->
  (forall k, In k ["emissions"; "concentrations"; "forcing"; "carbon cycle"] -> ~ In k (output_names (t_names th))) ->
  dget (t_names th) "dT_glob" = Some "dtemp" -> get_first_key (t_names th) "dtemp" = Ok "dT_glob" -> dget gt "CO2" = Some g -> g_unit g <> "-" -> (exists k, ordinary gt k) -> conc_run (c_p sc) = false ->
  box_coupled_run nan bp sc th c gt t0 true true r = out -> box_coupled_run nan bp sc' th c' gt t0 true true r' = out' -> o_exn out = None -> o_exn out' = None ->
  forall k, In k ["Net primary production"; "Ocean carbon flux"] ->
  exists v v', in_frame (o_results out) "carbon cycle" k v /\ in_frame (o_results out') "carbon cycle" k v' /\ List.length v = d_years c /\ List.length v' = d_years c' /\ rows_agree M v v'.
Proof.
  intros U SS P P' W RS DO NF TD FK GC GU OR CR E E' X X' k I.
  destruct (P_Span3.c91_box nan th gt t0 bp M sc sc' c c' true true r r' out out' U SS P P' W RS DO NF E E' X X') as (AR & _ & CO). destruct (CO OR) as (f & f' & F & F' & _ & RF).
  assert (HY : forall sc0, prepared gt sc0 -> dmem (fr_cols (c_erf sc0)) "CO2" = false /\ wf (fr_cols (c_pc sc0)) /\ (forall k, In k (dkeys (fr_cols (c_pc sc0))) -> dmem (fr_cols (c_erf sc0)) k = true) /\
    (exists k, In k (dkeys (fr_cols (c_pc sc0)))) /\ ~ In "Year" (dkeys gt ++ dkeys (fr_cols (c_pc sc0)))).
  { intros sc0 [PO _ _ _]. destruct (P_Coupled8.erf_keys_in gt _ _ _ _ _ _ PO W) as [W1 [_ [_ [KI _]]]]. destruct (P_Forc7.c39_columns _ _ _ _ _ _ _ PO) as [C1 [C2 _]].
    split; [|split; [exact W1|split; [|split]]].
    - destruct (dmem (fr_cols (c_erf sc0)) "CO2") eqn:D; [|reflexivity]. apply dget_In_keys in D. apply C2 in D as [D|D]; [|discriminate D]. apply C1 in D as (g0 & _ & NI & _). exfalso. apply NI. now left.
    - intros j J. apply dget_In_keys. apply C2. now left.
    - destruct OR as [j J]. exists j. apply C1. exact J.
    - rewrite in_app_iff. intros [J|J]; [|apply KI in J]; exact (RS "Year" (or_introl eq_refl) J). }
  destruct (HY sc P) as (Q1 & Q2 & Q3 & Q4 & Q5). destruct (HY sc' P') as (Q1' & Q2' & Q3' & Q4' & Q5').
  assert (CR' : conc_run (c_p sc') = false) by (rewrite (sp_p _ _ _ _ _ U); exact CR).
  assert (SA : d_start c' = nystart (c_p sc')) by (rewrite (sp_start' _ _ _ _ _ U), (sp_p _ _ _ _ _ U); reflexivity).
  destruct (P_Box4.c93 (T:=T) nan bp sc th c gt t0 r out g (proj1 (sp_coupled _ _ _ _ _ U)) CR (sp_start _ _ _ _ _ U) (sp_end _ _ _ _ _ U) DO TD FK W GC GU Q1 Q2 Q3 Q4 Q5 E X)
    as (temp & ins & conc & npp & flux & T1 & _ & T2 & T3 & T4 & L1 & L2 & L3 & Z1).
  destruct (P_Box4.c93 (T:=T) nan bp sc' th c' gt t0 r' out' g (proj2 (sp_coupled _ _ _ _ _ U)) CR' SA (sp_end' _ _ _ _ _ U) DO TD FK W GC GU Q1' Q2' Q3' Q4' Q5' E' X')
    as (temp' & ins' & conc' & npp' & flux' & T1' & _ & T2' & T3' & T4' & L1' & L2' & L3' & Z1').
  cbv zeta in Z1, Z1'. assert (LM := sp_rows _ _ _ _ _ U). assert (LM' := sp_rows' _ _ _ _ _ U).
  destruct (AR "dT_glob") as (v & v' & V & V' & _ & _ & RT). { unfold output_names. apply in_or_app. left. apply dget_In_keys, dmem_true. eauto. }
  assert (v = temp) as -> by (unfold in_array in *; congruence). assert (v' = temp') as -> by (unfold in_array in *; congruence).
  destruct T2 as (fc & FC & T2). destruct T2' as (fc' & FC' & T2'). assert (fc = f) as -> by congruence. assert (fc' = f') as -> by congruence. assert (RC := RF _ _ _ T2 T2').
  assert (AT : forall (l l' : list R) i, rows_agree M l l' -> (i <= M)%nat -> nth i l 0%R = nth i l' 0%R).
  { intros l l' i RA Li. specialize (RA i Li). destruct (nth_error l i) as [x|] eqn:N1.
    - rewrite (nth_error_nth _ _ _ N1), (nth_error_nth l' i 0%R (eq_sym RA)). reflexivity.
    - symmetry in RA. apply nth_error_None in N1. apply nth_error_None in RA. now rewrite !nth_overflow. }
  assert (FR : forall l l' : list R, List.length l = d_years c -> List.length l' = d_years c' -> (forall i, (i <= M)%nat -> nth i l 0%R = nth i l' 0%R) -> rows_agree M l l').
  { intros l l' Ll Ll' Q i Li. rewrite (nth_error_nth' l 0%R) by lia. rewrite (nth_error_nth' l' 0%R) by lia. now rewrite (Q i Li). }
  destruct I as [<-|[<-|[]]].
  - exists npp, npp'. split; [exact T3|]. split; [exact T3'|]. split; [exact L2|]. split; [exact L2'|]. apply FR; [exact L2|exact L2'|]. intros i Li.
    destruct (Z1 i ltac:(lia)) as (_ & N1 & _). destruct (Z1' i ltac:(lia)) as (_ & N1' & _). rewrite N1, N1', (AT _ _ i RC Li), (AT _ _ i RT Li). reflexivity.
  - exists flux, flux'. split; [exact T4|]. split; [exact T4'|]. split; [exact L3|]. split; [exact L3'|]. apply FR; [exact L3|exact L3'|]. intros i Li.
    destruct (Z1 i ltac:(lia)) as (_ & _ & N1 & _). destruct (Z1' i ltac:(lia)) as (_ & _ & N1' & _). rewrite N1, N1', (AT _ _ i RC Li), (AT _ _ i RT Li). reflexivity.
Qed.
