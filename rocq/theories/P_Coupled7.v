(** * P_Coupled7: C85 with the bundled hypotheses *)
From Coq Require Import Lia.
From Verif Require Import PyBase PyBaseFacts Num M_Gas M_TwoLayer M_Forcing M_Carbon M_CarbonBack M_Driver M_Results Spec_Gas Spec_Driver Spec_Reader Spec_Results Spec_Coupled P_Coupled6.

Section Past.
Context {A : Type} {N : Num A} {T : Type}.
Variables (nan : A) (cp : cc_pam A) (th : thermal A T) (gt : dict (gas A)) (t0 : T) (cc0 : cc_state A).

Ltac unpack := match goal with H : agree_until _ _ _ _ _ |- _ =>
  destruct H as [[PP ST EN ST' EN' LM [RF RF'] L1 L2 L3 L4 AC AE A4 A2 AP] AF] end.
Ltac inputs := intros n Ln; unfold rows_agree in *; auto.

Lemma c85_a M sc sc' c c' carbon carbon' r r' out out' : agree_until M sc sc' c c' -> wf (fr_cols (c_erf sc)) -> wf (fr_cols (c_erf sc')) ->
  distinct_outputs (t_names th) -> (forall k, In k ["emissions"; "concentrations"; "forcing"; "carbon cycle"] -> ~ In k (output_names (t_names th))) ->
  coupled_run nan cp sc th c gt t0 cc0 true carbon r = out -> coupled_run nan cp sc' th c' gt t0 cc0 true carbon' r' = out' ->
  o_exn out = None -> o_exn out' = None ->
  forall o, In o (output_names (t_names th)) -> exists v v', in_array (o_results out) o v /\ in_array (o_results out') o v' /\
    List.length v = d_years c /\ List.length v' = d_years c /\ rows_agree M v v'.
Proof.
  intros U W W' DO NF E E' X X' o I. unpack.
  eapply (c85_arrays nan cp sc sc' th c c' gt t0 cc0 M); try eassumption; try (apply NF; cbn; tauto). inputs.
Qed.
Lemma c85_f M sc sc' c c' carbon carbon' r r' out out' : agree_until M sc sc' c c' -> wf (fr_cols (c_erf sc)) -> wf (fr_cols (c_erf sc')) ->
  distinct_outputs (t_names th) -> wf gt -> (exists k, In k (dkeys (fr_cols (c_erf sc)))) ->
  (forall k, In k reserved -> ~ In k (dkeys gt) /\ ~ In k (dkeys (fr_cols (c_erf sc)))) ->
  coupled_run nan cp sc th c gt t0 cc0 true carbon r = out -> coupled_run nan cp sc' th c' gt t0 cc0 true carbon' r' = out' ->
  o_exn out = None -> o_exn out' = None -> frames_until M (o_results out) (o_results out') "forcing".
Proof.
  intros U W W' DO WG NE RS E E' X X'. unpack.
  eapply (c85_forcing nan cp sc sc' th c c' gt t0 cc0 M); try eassumption. inputs.
Qed.
Lemma c85_c M sc sc' c c' carbon carbon' r r' out out' : agree_until M sc sc' c c' -> wf (fr_cols (c_erf sc)) -> wf (fr_cols (c_erf sc')) ->
  distinct_outputs (t_names th) -> wf gt -> wf (fr_cols (c_pc sc)) -> wf (fr_cols (c_pc sc')) ->
  agree_on (until (nystart (c_p sc) + Z.of_nat M)) (c_pc sc) (c_pc sc') ->
  (forall k, In k (dkeys (fr_cols (c_pc sc))) -> dmem (fr_cols (c_erf sc)) k = true) -> (exists k, In k (dkeys (fr_cols (c_pc sc)))) ->
  ~ In "Year" (dkeys gt ++ dkeys (fr_cols (c_pc sc))) ->
  coupled_run nan cp sc th c gt t0 cc0 true carbon r = out -> coupled_run nan cp sc' th c' gt t0 cc0 true carbon' r' = out' ->
  o_exn out = None -> o_exn out' = None -> frames_until M (o_results out) (o_results out') "concentrations".
Proof.
  intros U W W' DO WG WP WP' AG PE NE NY E E' X X'. unpack.
  eapply (c85_concentrations nan cp sc sc' th c c' gt t0 cc0 M); try eassumption. inputs.
Qed.
End Past.
