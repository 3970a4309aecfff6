(** * P_Driver3: the two thermal models in forcing runs, the feedback lag, files *)
From Verif Require Import PyBase PyBaseFacts Num M_Gas M_TwoLayer M_UDM M_Forcing M_Driver Spec_Driver P_Forc P_Driver P_Driver2.

Section Facts.
Context {A : Type} {N : Num A}.
Local Open Scope num_scope.

Lemma nth_error_eq {B} (l l' : list B) : (forall n, nth_error l n = nth_error l' n) -> l = l'.
Proof.
  revert l'. induction l as [|x l IH]; intros [|y l'] E.
  - reflexivity.
  - specialize (E 0%nat). discriminate.
  - specialize (E 0%nat). discriminate.
  - f_equal; [specialize (E 0%nat); now injection E | apply IH; intros n; exact (E (S n))].
Qed.
Lemma tl_distinct : distinct_outputs tl_names.
Proof. apply nodupb_NoDup. reflexivity. Qed.
Lemma ud_distinct : distinct_outputs ud_names.
Proof. apply nodupb_NoDup. reflexivity. Qed.

(** the inputs behind a trace *)
Lemma tl_forced p c rf : forall tr n t, forced (tl_thermal p) c rf n t tr ->
  exists ins, List.length ins = List.length tr /\
    (forall m i f v, nth_error ins m = Some i -> nth_error tr m = Some (v, f) -> year_input c rf (n + m) i f) /\
    map fst tr = map tl_values (tl_run p t ins).
Proof.
  induction tr as [|[v f] tr IH]; intros n t X.
  - exists []. split; [reflexivity|]. split; [intros [|m] i f v E; discriminate | reflexivity].
  - inversion X as [|n' t0 i f' t' v' tr' YI TY X']; subst. destruct (IH _ _ X') as (ins & I1 & I2 & I3).
    exists (i :: ins). split; [cbn; lia|]. cbn [tl_thermal t_year] in TY. destruct (tl_year p t i) as [s o] eqn:E.
    injection TY as <- <-. split.
    + intros [|m] j g w E1 E2; cbn in E1, E2.
      * rewrite Nat.add_0_r. congruence.
      * replace (n + S m)%nat with (S n + m)%nat by lia. eapply I2; eassumption.
    + cbn [map fst tl_run]. rewrite E. cbn [map]. now rewrite I3.
Qed.
Lemma ud_forced p c rf : forall tr n t, forced (ud_thermal p) c rf n t tr ->
  exists ins ohc, List.length ins = List.length tr /\
    (forall m i f v, nth_error ins m = Some i -> nth_error tr m = Some (v, f) -> year_input c rf (n + m) i f) /\
    map y_ohc700 (ud_run p t ins) = map Some ohc /\
    map fst tr = map2 ud_values (ud_run p t ins) ohc.
Proof.
  induction tr as [|[v f] tr IH]; intros n t X.
  - exists [], []. split; [reflexivity|]. split; [intros [|m] i f v E; discriminate | split; reflexivity].
  - inversion X as [|n' t0 i f' t' v' tr' YI TY X']; subst. destruct (IH _ _ X') as (ins & ohc & I1 & I2 & I3 & I4).
    cbn [ud_thermal t_year] in TY. destruct (ud_year p t i) as [s o] eqn:E. destruct (y_ohc700 o) as [oh|] eqn:OH; [|discriminate].
    injection TY as <- <-. exists (i :: ins), (oh :: ohc). split; [cbn; lia|]. split.
    + intros [|m] j g w E1 E2; cbn in E1, E2.
      * rewrite Nat.add_0_r. congruence.
      * replace (n + S m)%nat with (S n + m)%nat by lia. eapply I2; eassumption.
    + cbn [map fst ud_run]. rewrite E. cbn [map map2]. now rewrite I3, I4, OH.
Qed.
Lemma tl_run_len p ins : forall t, List.length (tl_run p t ins) = List.length ins.
Proof. induction ins as [|i ins IH]; intros t; cbn; [reflexivity|]. destruct (tl_year p t i). cbn. now rewrite IH. Qed.
Lemma ud_run_len p ins : forall t, List.length (ud_run p t ins) = List.length ins.
Proof. induction ins as [|i ins IH]; intros t; cbn; [reflexivity|]. destruct (ud_year p t i). cbn. now rewrite IH. Qed.

(** reading a column of a complete table *)
Lemma column_of {B} names c tr r o (g : B -> A) (outs : list B) : complete names c tr r -> In o (output_names names) ->
  List.length outs = List.length tr ->
  (forall n v f b, nth_error tr n = Some (v, f) -> nth_error outs n = Some b -> cell names c o n v f = Some (g b)) ->
  dget r o = Some (Arr (map g outs)).
Proof.
  intros C I L E. destruct (C o I) as (col & C1 & C2 & C3). rewrite C1. do 2 f_equal. apply nth_error_eq. intros n.
  rewrite nth_error_map. destruct (nth_error outs n) as [b|] eqn:NB.
  - destruct (nth_error tr n) as [[v f]|] eqn:NT.
    + rewrite (C3 _ _ _ NT). cbn. eapply E; eassumption.
    + exfalso. apply nth_error_None in NT. assert (n < List.length outs)%nat by (apply nth_error_Some; congruence). lia.
  - apply nth_error_None in NB. cbn. apply nth_error_None. lia.
Qed.
Lemma map_fst_nth {B C} (l : list (B * C)) n v f : nth_error l n = Some (v, f) -> nth_error (map fst l) n = Some v.
Proof. intros E. rewrite nth_error_map, E. reflexivity. Qed.
Lemma nth_error_map2 {B C D} (g : B -> C -> D) : forall l l' n, nth_error (map2 g l l') n =
  match nth_error l n, nth_error l' n with Some x, Some y => Some (g x y) | _, _ => None end.
Proof.
  induction l as [|x l IH]; intros [|y l'] [|n]; cbn; try reflexivity.
  - destruct (nth_error l n); reflexivity.
  - apply IH.
Qed.

Lemma forc_columns names c tr r : distinct_outputs names -> complete names c tr r -> List.length tr = d_years c ->
  dget r "Total_forcing" = Some (Arr (map snd tr)) /\
  dget r "Solar_forcing" = Some (Arr (firstn (d_years c) (d_sun c))) /\
  dget r "Volcanic_forcing_NH" = Some (Arr (map nmean (firstn (d_years c) (d_vn c)))) /\
  dget r "Volcanic_forcing_SH" = Some (Arr (map nmean (firstn (d_years c) (d_vs c)))).
Proof.
  intros DO C L.
  assert (forall o, In o FORC_OUTPUT_LIST -> dget names o = None) as FN.
  { intros o I. pose proof (@forc_name_none A) as X. specialize (X unit {| t_names := names; t_year := fun _ _ => Err IndexError |} DO). now apply X. }
  assert (forall o, In o FORC_OUTPUT_LIST -> In o (output_names names)) as IO by (intros o I; apply in_or_app; now right).
  assert (forall o (l : list A), In o FORC_OUTPUT_LIST ->
     (forall n v f, nth_error tr n = Some (v, f) -> cell names c o n v f = nth_error l n) ->
     dget r o = Some (Arr (firstn (d_years c) l))) as G.
  { intros o l I E. destruct (C o (IO o I)) as (col & C1 & C2 & C3). rewrite C1. do 2 f_equal. apply nth_error_eq. intros n.
    destruct (nth_error tr n) as [[v f]|] eqn:NT.
    - rewrite (C3 _ _ _ NT), (E _ _ _ NT). assert (n < d_years c)%nat as LN by (rewrite <- L; apply nth_error_Some; congruence).
      clear - LN. revert l n LN. induction (d_years c) as [|k IH]; intros l n LN; [lia|]. destruct l as [|x l]; [now rewrite firstn_nil|].
      destruct n as [|n]; cbn; [reflexivity | apply IH; lia].
    - apply nth_error_None in NT. transitivity (@None A); [apply nth_error_None; lia | symmetry; apply nth_error_None; rewrite firstn_length; lia]. }
  split.
  - rewrite (G "Total_forcing" (map snd tr)).
    + rewrite firstn_all2 by (rewrite map_length; lia). reflexivity.
    + cbn; tauto.
    + intros n v f E. unfold cell. rewrite FN by (cbn; tauto). cbn. rewrite nth_error_map, E. reflexivity.
  - split; [|split].
    + apply G; [cbn; tauto|]. intros n v f E. unfold cell. rewrite FN by (cbn; tauto). reflexivity.
    + rewrite <- firstn_map. apply G; [cbn; tauto|]. intros n v f E. unfold cell. rewrite FN by (cbn; tauto). cbn. symmetry. apply nth_error_map.
    + rewrite <- firstn_map. apply G; [cbn; tauto|]. intros n v f E. unfold cell. rewrite FN by (cbn; tauto). cbn. symmetry. apply nth_error_map.
Qed.

Section Runs.
Context {H : Type} (emi2conc : H -> Z -> option (dict A) -> result H)
  (conc2forc : H -> Z -> A -> A -> result (H * (A * A * A * A)))
  (add_results : H -> bool -> dict (list A) -> result (dict (frame A)))
  (fl : option (list string)).

Lemma c51_two_layer p c rf h0 carbon r :
  let out := run (tl_state A) (tl_thermal p) c H emi2conc conc2forc add_results fl (tl_init p) h0 true carbon r in
  d_rf c = Some rf -> o_exn out = None -> exists ins totals,
    List.length ins = d_years c /\ List.length totals = d_years c /\
    (forall n i f, nth_error ins n = Some i -> nth_error totals n = Some f -> year_input c rf n i f) /\
    (forall o g, In (o, g) tl_columns -> dget (o_results out) o = Some (Arr (map g (tl_run p (tl_init p) ins)))) /\
    dget (o_results out) "Total_forcing" = Some (Arr totals) /\
    dget (o_results out) "Solar_forcing" = Some (Arr (firstn (d_years c) (d_sun c))) /\
    dget (o_results out) "Volcanic_forcing_NH" = Some (Arr (map nmean (firstn (d_years c) (d_vn c)))) /\
    dget (o_results out) "Volcanic_forcing_SH" = Some (Arr (map nmean (firstn (d_years c) (d_vs c)))).
Proof.
  intros out R E. destruct (forcing_run (tl_thermal p) tl_distinct emi2conc conc2forc add_results fl c rf (tl_init p) h0 carbon r R) as [F1 F2].
  destruct (proj1 F1 E) as (tr & L & X & _). pose proof (F2 E tr L X) as C. destruct (tl_forced _ _ _ _ _ _ X) as (ins & I1 & I2 & I3).
  exists ins, (map snd tr). split; [congruence|]. split; [rewrite map_length; congruence|]. split.
  { intros n i f E1 E2. rewrite nth_error_map in E2. destruct (nth_error tr n) as [[v f']|] eqn:NT; [|discriminate].
    injection E2 as <-. exact (I2 n i f' v E1 NT). }
  split; [|exact (forc_columns _ _ _ _ tl_distinct C L)].
  intros o g I. apply (column_of _ _ _ _ _ g _ C).
  - apply smem_In. apply (in_map fst) in I. cbn [map fst tl_columns ud_columns] in I.
    repeat (destruct I as [<-|I]; [reflexivity|]). destruct I.
  - rewrite tl_run_len. exact I1.
  - intros n v f b NT NB. apply map_fst_nth in NT. rewrite I3, nth_error_map, NB in NT. cbn in NT. injection NT as <-.
    cbn in I. repeat (destruct I as [[= <- <-]|I]; [reflexivity|]). destruct I.
Qed.
Lemma c51_udm p c rf h0 carbon r :
  let out := run (ud_state A) (ud_thermal p) c H emi2conc conc2forc add_results fl (ud_init p) h0 true carbon r in
  d_rf c = Some rf -> o_exn out = None -> exists ins totals ohc,
    List.length ins = d_years c /\ List.length totals = d_years c /\
    (forall n i f, nth_error ins n = Some i -> nth_error totals n = Some f -> year_input c rf n i f) /\
    (forall o g, In (o, g) ud_columns -> dget (o_results out) o = Some (Arr (map g (ud_run p (ud_init p) ins)))) /\
    dget (o_results out) "OHC700" = Some (Arr ohc) /\ map y_ohc700 (ud_run p (ud_init p) ins) = map Some ohc /\
    dget (o_results out) "Total_forcing" = Some (Arr totals) /\
    dget (o_results out) "Solar_forcing" = Some (Arr (firstn (d_years c) (d_sun c))) /\
    dget (o_results out) "Volcanic_forcing_NH" = Some (Arr (map nmean (firstn (d_years c) (d_vn c)))) /\
    dget (o_results out) "Volcanic_forcing_SH" = Some (Arr (map nmean (firstn (d_years c) (d_vs c)))).
Proof.
  intros out R E. destruct (forcing_run (ud_thermal p) ud_distinct emi2conc conc2forc add_results fl c rf (ud_init p) h0 carbon r R) as [F1 F2].
  destruct (proj1 F1 E) as (tr & L & X & _). pose proof (F2 E tr L X) as C. destruct (ud_forced _ _ _ _ _ _ X) as (ins & ohc & I1 & I2 & I3 & I4).
  assert (List.length ohc = List.length tr) as LO.
  { apply (f_equal (@List.length _)) in I3. rewrite !map_length, ud_run_len in I3. congruence. }
  exists ins, (map snd tr), ohc. split; [congruence|]. split; [rewrite map_length; congruence|]. split.
  { intros n i f E1 E2. rewrite nth_error_map in E2. destruct (nth_error tr n) as [[v f']|] eqn:NT; [|discriminate].
    injection E2 as <-. exact (I2 n i f' v E1 NT). }
  split; [|split; [|split; [exact I3 | exact (forc_columns _ _ _ _ ud_distinct C L)]]].
  - intros o g I. apply (column_of _ _ _ _ _ g _ C).
    + apply smem_In. apply (in_map fst) in I. cbn [map fst tl_columns ud_columns] in I.
    repeat (destruct I as [<-|I]; [reflexivity|]). destruct I.
    + rewrite ud_run_len. exact I1.
    + intros n v f b NT NB. apply map_fst_nth in NT. rewrite I4, nth_error_map2, NB in NT.
      destruct (nth_error ohc n) as [oh|]; [|discriminate]. injection NT as <-.
      cbn in I. repeat (destruct I as [[= <- <-]|I]; [reflexivity|]). destruct I.
  - rewrite <- (map_id ohc) at 1. apply (column_of _ _ _ _ _ (fun x => x) _ C).
    + apply smem_In. reflexivity.
    + exact LO.
    + intros n v f b NT NB. apply map_fst_nth in NT. rewrite I4, nth_error_map2, NB in NT.
      destruct (nth_error (ud_run p (ud_init p) ins) n) as [oo|]; [|discriminate]. injection NT as <-. reflexivity.
Qed.
(** the two-layer model completes every forcing run that has its inputs *)
Lemma c51_two_layer_total p c rf h0 carbon r : d_rf c = Some rf ->
  o_exn (run (tl_state A) (tl_thermal p) c H emi2conc conc2forc add_results fl (tl_init p) h0 true carbon r) = None <->
  forall n, (n < d_years c)%nat -> exists i f, year_input c rf n i f.
Proof.
  intros R. destruct (forcing_run (tl_thermal p) tl_distinct emi2conc conc2forc add_results fl c rf (tl_init p) h0 carbon r R) as [F1 _].
  rewrite F1. split.
  - intros (tr & L & X & _) n LN. destruct (tl_forced _ _ _ _ _ _ X) as (ins & I1 & I2 & _).
    destruct (nth_error tr n) as [[v f]|] eqn:NT; [|apply nth_error_None in NT; lia].
    destruct (nth_error ins n) as [i|] eqn:NI; [|apply nth_error_None in NI; lia].
    exists i, f. exact (I2 n i f v NI NT).
  - intros X.
    assert (forall k n t, (n + k <= d_years c)%nat -> exists tr, List.length tr = k /\ forced (tl_thermal p) c rf n t tr) as Y.
    { induction k as [|k IH]; intros n t L; [exists []; split; [reflexivity | constructor]|].
      destruct (X n) as (i & f & YI); [lia|]. destruct (tl_year p t i) as [t' o] eqn:TY.
      destruct (IH (S n) t') as (tr & L' & F); [lia|]. exists ((tl_values o, f) :: tr). split; [cbn; lia|].
      econstructor; [exact YI | cbn [tl_thermal t_year]; rewrite TY; reflexivity | exact F]. }
    destruct (Y (d_years c) 0%nat (tl_init p)) as (tr & L & F); [lia|]. exists tr. split; [exact L|]. split; [exact F|].
    intros n v f o NT I.
    destruct (tl_forced _ _ _ _ _ _ F) as (ins & I1 & I2 & I3).
    assert (n < d_years c)%nat as LN by (rewrite <- L; apply nth_error_Some; congruence).
    destruct (X n LN) as (i & f' & fn & fs & g & w & s & vn & vs & _ & S1 & S2 & S3 & _ & _).
    apply map_fst_nth in NT. rewrite I3, nth_error_map in NT. destruct (nth_error (tl_run p (tl_init p) ins) n) as [oo|]; [|discriminate].
    injection NT as <-.
    unfold output_names in I. cbn in I.
    repeat (destruct I as [<-|I]; [cbn; try rewrite S1; try rewrite S2; try rewrite S3; cbn; discriminate|]). destruct I.
Qed.
End Runs.
End Facts.
