(** * P_Span4: the carbon frame of runs of different lengths (C91) *)
From Coq Require Import Lia.
From Verif Require Import PyBase PyBaseFacts Num M_Gas M_Forcing M_Carbon M_CarbonBack M_Driver M_Results M_BoxRun Spec_Driver Spec_Coupled Spec_Span.
From Verif Require P_UDM P_Gas3 P_Coupled P_Coupled6 P_Span2 P_Span3.
Import P_Coupled.

Lemma tab_at {B} n (f : nat -> B) i : nth_error (tab n f) i = if Nat.ltb i n then Some (f i) else None.
Proof.
  destruct (Nat.ltb_spec i n) as [L|L]; [apply P_UDM.nth_error_tab_lt; exact L|]. apply nth_error_None. unfold tab. now rewrite map_length, seq_length.
Qed.
Section Kept.
Context {A : Type} {N : Num A}.
(** what every year of the carbon cycle keeps is kept by the handler *)
Lemma emi2conc_keeps_cc (S Fb : Type) (co2 : S -> Z -> A -> Fb -> S * A) (p : hpam A) (conc_in emis n4 n2 : frame A) (K : S -> Prop) y fb :
  (forall cc em, K cc -> K (fst (co2 cc y em fb))) -> forall cc st cc' st', emi2conc S Fb co2 p conc_in emis n4 n2 y fb cc st = Ok (cc', st') -> K cc -> K cc'.
Proof.
  intros H. assert (CO : forall cc st cc' st', co2_year S Fb co2 emis cc y fb st = Ok (cc', st') -> K cc -> K cc').
  { intros cc st cc' st'. unfold co2_year. destruct (co2_emission emis st y) as [em|]; cbn [rbind]; [|discriminate].
    destruct (conc_set st "CO2" y _); cbn [rbind]; [|discriminate]. intros E; injection E as <- _. apply H. }
  intros cc st cc' st'. unfold emi2conc. destruct (conc_run p).
  { destruct (fill_one_row conc_in y [] st); cbn [rbind]; [|discriminate]. intros E; injection E as <- _. auto. }
  destruct (y <? emstart p)%Z.
  { destruct (co2_year _ _ _ _ _ _ _ _) as [[c1 s1]|] eqn:E; cbn [rbind]; [|discriminate]. cbn [fst snd]. destruct (fill_one_row conc_in y ["CO2"] s1); cbn [rbind]; [|discriminate].
    intros Q; injection Q as <- _. exact (CO _ _ _ _ E). }
  generalize (dkeys (s_conc st)) as l. intros l. generalize (add_row_of_zeros y st). intros st1. clear st. revert cc st1. induction l as [|t l IH]; intros cc st E KC; cbn [fold_left] in E; [injection E as <- _; exact KC|].
  match type of E with fold_left _ l ?x = _ => destruct x as [[c1 s1]|] eqn:Q end. 2:{ rewrite P_Gas3.fold_err in E by reflexivity. discriminate. }
  apply (IH c1 s1 E). unfold emi2conc_tracer in Q. cbn [rbind] in Q. destruct (key t (dget (s_gas st) t)) as [g|]; cbn [rbind] in Q; [|discriminate].
  destruct (String.eqb (g_unit g) "-"); [injection Q as <- _; exact KC|]. destruct (String.eqb t "CO2"); [exact (CO _ _ _ _ Q KC)|].
  match type of Q with (do _ <- ?e; _) = _ => destruct e; cbn [rbind] in Q; [|discriminate] end. cbv zeta in Q.
  match type of Q with (do _ <- ?e; _) = _ => destruct e as [[g' q']|]; cbn [rbind] in Q; [|discriminate] end.
  destruct (fr_get emis t y); cbn [rbind] in Q; [|discriminate].
  match type of Q with (do _ <- ?e; _) = _ => destruct e; cbn [rbind] in Q; [|discriminate] end. injection Q as <- _. exact KC.
Qed.
Lemma alike_refl {B} n (l : list B) : starts_alike n l l. Proof. intros i _. reflexivity. Qed.
Lemma alike_trans {B} n (a b c : list B) : starts_alike n a b -> starts_alike n b c -> starts_alike n a c. Proof. intros X Y i L. rewrite (X i L). exact (Y i L). Qed.
Lemma alike_late {B} n i (l : list B) v : (n <= i)%nat -> starts_alike n (upd l i v) l.
Proof. intros L j Lj. rewrite P_Span2.upd_nth. destruct (Nat.eqb_spec i j); [lia|reflexivity]. Qed.
(** years from row [m] on do not touch the steps before it *)
Definition before (n : nat) (h0 h : cc_state A) : Prop := starts_alike n (h_s h) (h_s h0) /\ starts_alike n (h_d h) (h_d h0).
Variable cp : cc_pam A.
Lemma late_step n h0 fnpp em h it : (n <= it)%nat -> before n h0 h -> before n h0 (cc_step cp fnpp em h it).
Proof.
  intros L [B1 B2]. unfold cc_step, before. cbv zeta. cbn [h_s h_d]. split.
  - eapply alike_trans; [apply alike_late; exact L|exact B1].
  - destruct (Nat.eqb it 0); [exact B2|]. eapply alike_trans; [apply alike_late; exact L|exact B2].
Qed.
Lemma late_year m h0 h ix em dt : (m <= ix)%nat -> before (m * idtm cp) h0 h -> before (m * idtm cp) h0 (fst (co2em2conc cp h ix em dt)).
Proof.
  intros L B. unfold co2em2conc. cbv zeta. cbn [fst].
  assert (Q : forall l h, (forall i, In i l -> (m * idtm cp <= i)%nat) -> before (m * idtm cp) h0 h -> before (m * idtm cp) h0 (fold_left (cc_step cp (fnpp_from_temp cp dt) em) l h)).
  { induction l as [|i l IH]; intros h1 I B1; [exact B1|]. cbn [fold_left]. apply IH; [intros j J; apply I; now right|]. apply late_step; [apply I; now left|exact B1]. }
  apply Q; [|exact B]. intros i I. apply in_seq in I. nia.
Qed.
Lemma late_trace sc (c : inst A) m h0 n h l h' : d_start c = nystart (c_p sc) -> (m <= n)%nat -> htrace c (any_emi2conc (cc_state A) (co2em2conc cp) sc) (any_conc2forc (cc_state A) sc) n h l h' ->
  before (m * idtm cp) h0 (fst h) -> before (m * idtm cp) h0 (fst h').
Proof.
  intros ST L X. induction X as [n h|n h fb luc sun q h1 h2 l h3 E1 _ _ E2 X IH]; intros B; [exact B|]. apply IH; [lia|].
  assert (fst h2 = fst h1) as ->. { unfold any_conc2forc in E2. destruct (conc2forc _ _ _ _ _ _ _ _ _); cbn [rbind] in E2; [|discriminate]. injection E2 as <- _. reflexivity. }
  unfold any_emi2conc in E1. destruct h1 as [cc1 st1]. cbn [fst]. revert E1 B. apply (emi2conc_keeps_cc _ _ _ _ _ _ _ _ (before (m * idtm cp) h0)).
  intros cc em K. apply late_year; [|exact K]. rewrite ST. lia.
Qed.
(** the yearly sums *)
Lemma slice_alike M (l l' : list A) k : starts_alike (S M * idtm cp) l l' -> (k <= M)%nat -> year_slice cp l k = year_slice cp l' k.
Proof.
  intros X L. unfold year_slice. rewrite !firstn_skipn_comm. f_equal. apply (P_Span2.alike_firstn _ _ _ _ X). nia.
Qed.
End Kept.

Section Frame.
Context {A : Type} {N : Num A}.
Variables (M : nat) (cp cp' : cc_pam A).
Hypothesis SD : same_decay M cp cp'.
Lemma ffer_alike d d' : starts_alike (S M * idtm cp) d d' -> starts_alike (S M * idtm cp) (ffer_series cp d) (ffer_series cp' d').
Proof.
  assert (Y := proj2 (proj2 SD)). remember (S M * idtm cp)%nat as K eqn:EK. clear EK. intros X i L. unfold ffer_series. rewrite !tab_at.
  assert (LL : (i < List.length d <-> i < List.length d')%nat) by (rewrite <- !nth_error_Some, (X i L); reflexivity).
  assert (sumf cp d i = sumf cp' d' i) as ->.
  { unfold sumf. destruct (Nat.eqb i 0); [reflexivity|]. rewrite (P_Span2.alike_firstn _ (i - 1) _ _ (P_Span2.alike_tl _ _ _ X)) by lia. rewrite (P_Span2.alike_firstn _ (i - 1) _ _ Y) by lia. reflexivity. }
  rewrite (P_Span2.alike_nth _ _ _ _ _ X L). assert (cc_dt cp' = cc_dt cp) as -> by (rewrite (proj1 SD); reflexivity).
  destruct (Nat.ltb_spec i (List.length d)), (Nat.ltb_spec i (List.length d')); try reflexivity; lia.
Qed.
Variable nan : A.
Lemma frame_shape (q : cc_pam A) (p : hpam A) emis cc st series r : conc_run p = false -> carbon_data nan q p emis cc st series = Ok r -> exists dt a,
  dget series "dtemp" = Some dt /\ years_tot q = List.length (years_of p) /\
  fr_cols (snd r) = [("Biosphere carbon flux", biosphere_flux q (ffer_series q (h_d cc))); ("Ocean carbon flux", ocean_flux q cc);
    ("Mixed layer depth", map (mixed_layer_temp_feedback q) dt); ("CO2 solubility", map (solubility_temp_feedback q) dt); ("Net Primary Production", map (fnpp_from_temp q) dt);
    ("Airborne fraction CO2", a)].
Proof.
  intros CR. unfold carbon_data. rewrite CR. destruct (key "CO2" _) as [d|]; cbn [rbind]; [|discriminate]. cbv zeta.
  destruct (mapM _ _) as [ff|]; cbn [rbind]; [|discriminate]. destruct (mapM _ _) as [af|]; cbn [rbind]; [|discriminate].
  unfold carbon_output. destruct (dget series "dtemp") as [dt|]; cbn [rbind]; [|discriminate]. unfold make_frame.
  match goal with |- context [if ?b then _ else _] => destruct b eqn:FB end; cbn [rbind]; [|discriminate]. cbn [snd fst]. unfold set_col.
  match goal with |- context [if ?b then _ else _] => destruct b end; cbn [rbind]; [|discriminate]. intros E; injection E as <-. cbn [snd fr_cols].
  exists dt. eexists. split; [reflexivity|]. split; [|reflexivity].
  cbn [forallb snd] in FB. apply Bool.andb_true_iff in FB as [FB _]. apply Nat.eqb_eq in FB. rewrite <- FB. unfold biosphere_flux, tab. now rewrite map_length, seq_length.
Qed.
Lemma map_rows {B C} (f : B -> C) (l l' : list B) : rows_agree M l l' -> rows_agree M (map f l) (map f l').
Proof. intros X i L. rewrite !nth_error_map, (X i L). reflexivity. Qed.
Lemma frame_rows (p p' : hpam A) emis emis' cc cc' st st' series series' r r' dt dt' : conc_run p = false -> conc_run p' = false ->
  carbon_data nan cp p emis cc st series = Ok r -> carbon_data nan cp' p' emis' cc' st' series' = Ok r' -> dget series "dtemp" = Some dt -> dget series' "dtemp" = Some dt' ->
  rows_agree M dt dt' -> starts_alike (S M * idtm cp) (h_s cc) (h_s cc') -> starts_alike (S M * idtm cp) (h_d cc) (h_d cc') ->
  (M < List.length (years_of p))%nat -> (M < List.length (years_of p'))%nat ->
  dkeys (fr_cols (snd r)) = ["Biosphere carbon flux"; "Ocean carbon flux"; "Mixed layer depth"; "CO2 solubility"; "Net Primary Production"; "Airborne fraction CO2"] /\ dkeys (fr_cols (snd r')) = dkeys (fr_cols (snd r)) /\
  forall k v v', k <> "Airborne fraction CO2" -> dget (fr_cols (snd r)) k = Some v -> dget (fr_cols (snd r')) k = Some v' -> rows_agree M v v'.
Proof.
  intros CR CR' E E' D D' RD RS RN L L'. destruct (frame_shape _ _ _ _ _ _ _ CR E) as (d1 & a & D1 & Y & ->). destruct (frame_shape _ _ _ _ _ _ _ CR' E') as (d1' & a' & D1' & Y' & ->).
  assert (d1 = dt) as -> by congruence. assert (d1' = dt') as -> by congruence. split; [reflexivity|]. split; [reflexivity|].
  assert (ID : idtm cp' = idtm cp) by (rewrite (proj1 SD); reflexivity).
  assert (SL : forall l k, year_slice cp' l k = year_slice cp l k) by (intros; unfold year_slice; rewrite ID; reflexivity).
  assert (B : rows_agree M (biosphere_flux cp (ffer_series cp (h_d cc))) (biosphere_flux cp' (ffer_series cp' (h_d cc')))).
  { intros i Li. unfold biosphere_flux. rewrite !tab_at, Y, Y'. destruct (Nat.ltb_spec i (List.length (years_of p))), (Nat.ltb_spec i (List.length (years_of p'))); try lia.
    rewrite SL, ID, (slice_alike cp M _ _ i (ffer_alike _ _ RN) Li). reflexivity. }
  assert (O : rows_agree M (ocean_flux cp cc) (ocean_flux cp' cc')).
  { intros i Li. unfold ocean_flux. rewrite !tab_at, Y, Y'. destruct (Nat.ltb_spec i (List.length (years_of p))), (Nat.ltb_spec i (List.length (years_of p'))); try lia.
    rewrite SL, ID, (slice_alike cp M _ _ i RS Li). reflexivity. }
  assert (F1 : forall t, mixed_layer_temp_feedback cp' t = mixed_layer_temp_feedback cp t) by (intros; rewrite (proj1 SD); reflexivity).
  assert (F2 : forall t, solubility_temp_feedback cp' t = solubility_temp_feedback cp t) by (intros; rewrite (proj1 SD); reflexivity).
  assert (F3 : forall t, fnpp_from_temp cp' t = fnpp_from_temp cp t) by (intros; rewrite (proj1 SD); reflexivity).
  rewrite (map_ext _ _ F1), (map_ext _ _ F2), (map_ext _ _ F3). clear -B O RD.
  intros k v v' NK. cbn [dget]. repeat (match goal with |- context [String.eqb ?x k] => destruct (String.eqb_spec x k); [intros X X'; injection X as <-; injection X' as <-; try assumption; try (apply map_rows; exact RD); congruence|] end).
  discriminate.
Qed.
End Frame.

Section Whole.
Context {A : Type} {N : Num A} {T : Type}.
Variables (nan : A) (th : thermal A T) (gt : dict (gas A)) (t0 : T).
Lemma first_out (r r' : results A) series series' : feedback_series T th h_feedbacks r = Ok series -> feedback_series T th h_feedbacks r' = Ok series' ->
  exists o l l', In o (output_names (t_names th)) /\ dget r o = Some (Arr l) /\ dget r' o = Some (Arr l') /\ dget series "dtemp" = Some l /\ dget series' "dtemp" = Some l'.
Proof.
  unfold feedback_series, h_feedbacks. cbn [mapM]. unfold get_first_key. destruct (filter _ (t_names th)) as [|[o w] x] eqn:F; cbn [rbind]; [discriminate|].
  unfold arr_of. destruct (dget r o) as [[l|f]|] eqn:D; cbn [rbind]; try discriminate. destruct (dget r' o) as [[l'|f]|] eqn:D'; cbn [rbind]; try discriminate.
  intros E E'; injection E as <-; injection E' as <-. exists o, l, l'. split; [|repeat (split; [assumption || reflexivity|]); reflexivity].
  unfold output_names. apply in_or_app. left. assert (I : In (o, w) (t_names th)) by (eapply proj1; apply filter_In; rewrite F; now left). exact (in_map fst _ _ I).
Qed.
Lemma c91_frame (cp cp' : cc_pam A) (cc0 cc0' : cc_state A) M sc sc' c c' r r' out out' : agree_span M sc sc' c c' -> same_source (c_p sc) (nyend (c_p sc')) (nystart (c_p sc) + Z.of_nat M) ->
  same_decay M cp cp' -> same_carbon M cp cc0 cc0' -> prepared gt sc -> prepared gt sc' -> wf gt -> distinct_outputs (t_names th) -> conc_run (c_p sc) = false ->
  coupled_run nan cp sc th c gt t0 cc0 true true r = out -> coupled_run nan cp' sc' th c' gt t0 cc0' true true r' = out' -> o_exn out = None -> o_exn out' = None ->
  exists f f', dget (o_results out) "carbon cycle" = Some (Fr f) /\ dget (o_results out') "carbon cycle" = Some (Fr f') /\ dkeys (fr_cols f) = ["Biosphere carbon flux"; "Ocean carbon flux"; "Mixed layer depth"; "CO2 solubility"; "Net Primary Production"; "Airborne fraction CO2"] /\ dkeys (fr_cols f') = dkeys (fr_cols f) /\
    forall k v v', k <> "Airborne fraction CO2" -> dget (fr_cols f) k = Some v -> dget (fr_cols f') k = Some v' -> rows_agree M v v'.
Proof.
  intros U SS SD SC P P' W DO CR E E' X X'. destruct (P_Span3.c91_before gt M sc sc' c c' U SS P P' W) as [_ AF].
  destruct P as [PO _ _ _], P' as [PO' _ _ _]. destruct (P_Coupled8.erf_keys_in gt _ _ _ _ _ _ PO W) as [_ [W2 _]]. destruct (P_Coupled8.erf_keys_in gt _ _ _ _ _ _ PO' W) as [_ [W2' _]].
  destruct (P_Span2.runs nan (cc_state A) (co2em2conc cp) (co2em2conc cp') (carbon_data nan cp (c_p sc) (c_emis sc)) (carbon_data nan cp' (c_p sc') (c_emis sc')) (same_carbon M cp) sc sc' th c c' gt t0 cc0 cc0' M U
    (fun n a a' em dt L R => P_Span2.same_co2 M cp cp' SD a a' n em dt R L) SC AF W2 W2' DO true true r r' out out' E E' X X')
    as (s & s' & series & series' & fs & fs' & tr & tr' & h0 & h0' & l & l' & AR & AR' & OR & OR' & C & C' & LT & LT' & EQ & RL & H1 & H2 & _ & _ & _ & _ & _ & _ & FB & FB' & _).
  destruct (P_Coupled6.frames_of nan _ _ _ _ _ _ _ AR) as (_ & _ & _ & _ & _ & _ & _ & _ & _ & WFS). destruct (P_Coupled6.frames_of nan _ _ _ _ _ _ _ AR') as (_ & _ & _ & _ & _ & _ & _ & _ & _ & WFS').
  unfold any_add_results in AR, AR'.
  destruct (forcing_frame (c_p sc) _ _) as [a1|]; cbn [rbind] in AR; [|discriminate]. destruct (emission_frame (c_p sc) _) as [a2|]; cbn [rbind] in AR; [|discriminate]. destruct (concentration_frame nan (c_p sc) _ _) as [a3|]; cbn [rbind] in AR; [|discriminate].
  destruct (forcing_frame (c_p sc') _ _) as [b1|]; cbn [rbind] in AR'; [|discriminate]. destruct (emission_frame (c_p sc') _) as [b2|]; cbn [rbind] in AR'; [|discriminate]. destruct (concentration_frame nan (c_p sc') _ _) as [b3|]; cbn [rbind] in AR'; [|discriminate].
  cbv zeta in AR, AR'. destruct (carbon_data nan cp _ _ _ _ _) as [q|] eqn:CD; cbn [rbind] in AR; [|discriminate]. destruct (carbon_data nan cp' _ _ _ _ _) as [q'|] eqn:CD'; cbn [rbind] in AR'; [|discriminate].
  injection AR as <-. injection AR' as <-. exists (snd q), (snd q'). unfold handler in *. rewrite OR, OR', !dget_dupdate by assumption. split; [reflexivity|]. split; [reflexivity|].
  destruct (first_out _ _ _ _ FB FB') as (o & col & col' & IO & A1 & A2 & D & D').
  assert (RW : (M < List.length (years_of (c_p sc)))%nat /\ (M < List.length (years_of (c_p sc')))%nat) by exact (P_Span2.rows_p sc sc' c c' M U).
  eapply (frame_rows M cp cp' SD nan (c_p sc) (c_p sc')); try eassumption.
  - rewrite (sp_p _ _ _ _ _ U). exact CR.
  - destruct (C o IO) as (k1 & K1 & _ & K3). destruct (C' o IO) as (k1' & K1' & _ & K3'). assert (k1 = col) as -> by congruence. assert (k1' = col') as -> by congruence.
    intros i Li. specialize (EQ i Li). assert (LS := sp_rows _ _ _ _ _ U). destruct (nth_error tr i) as [[v f]|] eqn:T1; [|apply nth_error_None in T1; lia]. rewrite (K3 i v f T1), (K3' i v f (eq_sym EQ)).
    unfold cell. rewrite (sp_sun _ _ _ _ _ U i Li), (sp_vn _ _ _ _ _ U i Li), (sp_vs _ _ _ _ _ U i Li). reflexivity.
  - destruct RL as [RC _]. assert (B := late_trace cp sc c (S M) (fst h0) (S M) h0 l (l_h s) (sp_start _ _ _ _ _ U) (le_n _) H1 (conj (alike_refl _ _) (alike_refl _ _))).
    assert (S' : d_start c' = nystart (c_p sc')) by (rewrite (sp_start' _ _ _ _ _ U), (sp_p _ _ _ _ _ U); reflexivity).
    assert (B' := late_trace cp' sc' c' (S M) (fst h0') (S M) h0' l' (l_h s') S' (le_n _) H2 (conj (alike_refl _ _) (alike_refl _ _))).
    assert (ID : idtm cp' = idtm cp) by (rewrite (proj1 SD); reflexivity). rewrite ID in B'. destruct B as [B1 B2], B' as [B1' B2'].
    eapply alike_trans; [exact B1|]. eapply alike_trans; [exact (sb_s _ _ _ _ RC)|]. intros i Li. symmetry. exact (B1' i Li).
  - destruct RL as [RC _]. assert (B := late_trace cp sc c (S M) (fst h0) (S M) h0 l (l_h s) (sp_start _ _ _ _ _ U) (le_n _) H1 (conj (alike_refl _ _) (alike_refl _ _))).
    assert (S' : d_start c' = nystart (c_p sc')) by (rewrite (sp_start' _ _ _ _ _ U), (sp_p _ _ _ _ _ U); reflexivity).
    assert (B' := late_trace cp' sc' c' (S M) (fst h0') (S M) h0' l' (l_h s') S' (le_n _) H2 (conj (alike_refl _ _) (alike_refl _ _))).
    assert (ID : idtm cp' = idtm cp) by (rewrite (proj1 SD); reflexivity). rewrite ID in B'. destruct B as [B1 B2], B' as [B1' B2'].
    eapply alike_trans; [exact B2|]. eapply alike_trans; [exact (sb_d _ _ _ _ RC)|]. intros i Li. symmetry. exact (B2' i Li).
  - exact (proj1 RW).
  - exact (proj2 RW).
Qed.
End Whole.
