(** * P_Span6: the carbon frame of concentration runs of different lengths (C91) *)
From Coq Require Import Lia.
From Verif Require Import PyBase PyBaseFacts Num M_Gas M_Forcing M_Carbon M_CarbonBack M_Driver M_Results M_BoxRun Spec_Driver Spec_Coupled Spec_Span P_Span4.
From Verif Require P_UDM P_Gas2 P_Gas3 P_Coupled P_Coupled2 P_Coupled6 P_Coupled8 P_Box2 P_Span2 P_Span3 P_Input2.
Import P_Coupled.

(** ** The back-calculation *)
Section Back.
Context {A : Type} {N : Num A}.
(** two objects that answer alike are searched alike *)
Lemma bisect_alike (S S' : Type) call call' restore restore' (K : S -> S' -> Prop) :
  (forall s s' em, K s s' -> K (fst (call s em)) (fst (call' s' em)) /\ snd (call s em) = snd (call' s' em : S' * A)) ->
  (forall a a' s s', K a a' -> K s s' -> K (restore a s) (restore' a' s')) ->
  forall n s0 s0' s s' (target rtol mx mn guess est : A) done, K s0 s0' -> K s s' ->
  let x := bisect S call restore n s0 s target rtol mx mn guess est done in let x' := bisect S' call' restore' n s0' s' target rtol mx mn guess est done in
  fst (fst x) = fst (fst x') /\ K (snd (fst x)) (snd (fst x')) /\ snd x = snd x'.
Proof.
  intros HC HR. induction n as [|n IH]; intros s0 s0' s s' target rtol mx mn guess est done K0 K1; cbn [bisect].
  { destruct (negb _); auto. }
  destruct (negb _); [auto|]. destruct (nltb target est).
  - destruct (HC _ _ ((guess + mn) / #2)%num (HR _ _ _ _ K0 K1)) as [C1 C2]. destruct (call _ _) as [s1 e1], (call' _ _) as [s1' e1']. cbn [fst snd] in C1, C2. subst e1'. apply IH; assumption.
  - destruct (HC _ _ ((guess + mx) / #2)%num (HR _ _ _ _ K0 K1)) as [C1 C2]. destruct (call _ _) as [s1 e1], (call' _ _) as [s1' e1']. cbn [fst snd] in C1, C2. subst e1'. apply IH; assumption.
Qed.
Lemma guess_alike (S S' : Type) call call' restore restore' (K : S -> S' -> Prop) :
  (forall s s' em, K s s' -> K (fst (call s em)) (fst (call' s' em)) /\ snd (call s em) = snd (call' s' em : S' * A)) ->
  (forall a a' s s', K a a' -> K s s' -> K (restore a s) (restore' a' s')) ->
  forall s s' (target : A) mxmn rtol maxit, K s s' ->
  let x := guess_emissions S call restore s target mxmn rtol maxit in let x' := guess_emissions S' call' restore' s' target mxmn rtol maxit in
  fst (fst x) = fst (fst x') /\ K (snd (fst x)) (snd (fst x')) /\ snd x = snd x'.
Proof.
  intros HC HR s s' target [mx mn] rtol maxit K0. unfold guess_emissions. destruct (HC _ _ ((mn + mx) / #2)%num K0) as [C1 C2].
  destruct (call _ _) as [s1 e1], (call' _ _) as [s1' e1']. cbn [fst snd] in C1, C2. subst e1'. apply (bisect_alike S S' call call' restore restore' K); assumption.
Qed.
(** what the object keeps is kept by the search *)
Lemma bisect_keeps (S : Type) call restore (K : S -> Prop) : (forall s em, K s -> K (fst (call s em : S * A))) -> (forall a s, K s -> K (restore a s)) ->
  forall n s0 s (target rtol mx mn guess est : A) done, K s -> K (snd (fst (bisect S call restore n s0 s target rtol mx mn guess est done))).
Proof.
  intros HC HR. induction n as [|n IH]; intros s0 s target rtol mx mn guess est done K1; cbn [bisect].
  { destruct (negb _); exact K1. }
  destruct (negb _); [exact K1|]. destruct (nltb target est).
  - assert (C := HC _ ((guess + mn) / #2)%num (HR s0 _ K1)). destruct (call _ _) as [s1 e1]. apply IH. exact C.
  - assert (C := HC _ ((guess + mx) / #2)%num (HR s0 _ K1)). destruct (call _ _) as [s1 e1]. apply IH. exact C.
Qed.
Lemma guess_keeps (S : Type) call restore (K : S -> Prop) : (forall s em, K s -> K (fst (call s em : S * A))) -> (forall a s, K s -> K (restore a s)) ->
  forall s (target : A) mxmn rtol maxit, K s -> K (snd (fst (guess_emissions S call restore s target mxmn rtol maxit))).
Proof.
  intros HC HR s target [mx mn] rtol maxit K0. unfold guess_emissions. assert (C := HC _ ((mn + mx) / #2)%num K0). destruct (call _ _) as [s1 e1]. apply bisect_keeps; assumption.
Qed.

Lemma back_keeps (q : cc_pam A) m h0 widths : forall series h i prev, (m <= i)%nat -> before (m * idtm q) h0 h -> before (m * idtm q) h0 (fst (back_years q h i prev widths series)).
Proof.
  induction series as [|[conc dt] series IH]; intros h i prev L B; [exact B|]. cbn [back_years].
  assert (G := guess_keeps (cc_state A) (fun s em => co2em2conc q s i em dt) (fun s0 s => set_hold s (get_hold s0)) (before (m * idtm q) h0) (fun s em K => late_year q m h0 s i em dt L K)
    (fun a s K => K) h conc (initial_max_min_guess conc prev (nth (i * idtm q) widths (#0)%num)) RTOL MAXIT B).
  destruct (guess_emissions _ _ _ _ _ _ _ _) as [[em h1] dn]. cbn [fst snd] in G. assert (Q := IH h1 (S i) conc ltac:(lia) G). destruct (back_years q h1 _ _ _ _) as [h2 ems]. exact Q.
Qed.

Variables (M : nat) (cp cp' : cc_pam A).
Hypothesis SD : same_decay M cp cp'.
Lemma id_same : idtm cp' = idtm cp. Proof. rewrite (proj1 SD). reflexivity. Qed.
Lemma hold_same a a' s s' : same_carbon M cp a a' -> same_carbon M cp s s' -> same_carbon M cp (set_hold s (get_hold a)) (set_hold s' (get_hold a')).
Proof. intros [] []. constructor; assumption. Qed.
Definition arrays_same (h h' : cc_state A) : Prop := starts_alike (S M * idtm cp) (h_s h) (h_s h') /\ starts_alike (S M * idtm cp) (h_d h) (h_d h').
Lemma back_alike widths widths' : (forall i, (i <= M)%nat -> nth (i * idtm cp) widths (#0)%num = nth (i * idtm cp) widths' (#0)%num) ->
  forall series series' h h' i prev, (i <= S M)%nat -> starts_alike (S M - i) series series' -> same_carbon M cp h h' ->
  let x := back_years cp h i prev widths series in let x' := back_years cp' h' i prev widths' series' in
  starts_alike (S M - i) (snd x) (snd x') /\ arrays_same (fst x) (fst x').
Proof.
  intros W. induction series as [|[conc dt] series IH]; intros series' h h' i prev L SA SC; cbv zeta.
  { destruct (Nat.eq_dec i (S M)) as [E|NE].
    - split; [intros j Lj; lia|]. assert (B := back_keeps cp' (S M) h' widths' series' h' i prev ltac:(lia) (conj (alike_refl _ _) (alike_refl _ _))). rewrite id_same in B. destruct B as [B1 B2].
      cbn [back_years fst]. split; (eapply alike_trans; [|intros j Lj; symmetry; first [exact (B1 j Lj)|exact (B2 j Lj)]]); destruct SC; assumption.
    - destruct series' as [|y series']; [|discriminate (SA 0%nat ltac:(lia))]. cbn [back_years fst snd]. split; [apply alike_refl|]. destruct SC; split; assumption. }
  destruct (Nat.eq_dec i (S M)) as [E|NE].
  { split; [intros j Lj; lia|]. assert (B' := back_keeps cp' (S M) h' widths' series' h' i prev ltac:(lia) (conj (alike_refl _ _) (alike_refl _ _))). rewrite id_same in B'.
    assert (B := back_keeps cp (S M) h widths ((conc, dt) :: series) h i prev ltac:(lia) (conj (alike_refl _ _) (alike_refl _ _))). destruct B as [B1 B2], B' as [B1' B2'], SC.
    split; (eapply alike_trans; [first [exact B1|exact B2]|]; eapply alike_trans; [eassumption|]; intros j Lj; symmetry; first [exact (B1' j Lj)|exact (B2' j Lj)]). }
  assert (E0 := SA 0%nat ltac:(lia)). destruct series' as [|y series']; [discriminate E0|]. cbn [nth_error] in E0. injection E0 as <-. cbn [back_years]. rewrite id_same, <- (W i) by lia.
  assert (G := guess_alike (cc_state A) (cc_state A) (fun s em => co2em2conc cp s i em dt) (fun s em => co2em2conc cp' s i em dt) (fun s0 s => set_hold s (get_hold s0)) (fun s0 s => set_hold s (get_hold s0)) (same_carbon M cp)
    (fun s s' em K => P_Span2.same_co2 M cp cp' SD s s' i em dt K ltac:(lia)) hold_same h h' conc (initial_max_min_guess conc prev (nth (i * idtm cp) widths (#0)%num)) RTOL MAXIT SC). cbv zeta in G.
  destruct (guess_emissions _ _ _ h _ _ _ _) as [[em h1] dn], (guess_emissions _ _ _ h' _ _ _ _) as [[em' h1'] dn']. cbn [fst snd] in G. destruct G as (<- & KS & <-).
  assert (SA' : starts_alike (S M - S i) series series') by (intros j Lj; exact (SA (S j) ltac:(lia))).
  destruct (IH series' h1 h1' (S i) conc ltac:(lia) SA' KS) as [R1 R2]. destruct (back_years cp h1 _ _ _ _) as [h2 ems], (back_years cp' h1' _ _ _ _) as [h2' ems']. cbn [fst snd] in *.
  split; [|exact R2]. intros [|j] Lj; [reflexivity|]. cbn [nth_error]. apply R1. lia.
Qed.

(** the increments of the production *)
Lemma each_alike {B} (l l' : list B) : starts_alike (S M) l l' -> starts_alike (S M * idtm cp) (repeat_each (idtm cp) l) (repeat_each (idtm cp) l').
Proof.
  generalize (S M) as n. intros n. revert l l'. induction n as [|n IH]; intros l l' X; [intros i Li; lia|].
  assert (E0 := X 0%nat ltac:(lia)). destruct l as [|x l], l' as [|x' l']; try discriminate E0; [apply alike_refl|]. cbn [nth_error] in E0. injection E0 as <-. unfold repeat_each. cbn [flat_map].
  intros i Li. destruct (Nat.lt_ge_cases i (idtm cp)) as [L|L].
  - rewrite !nth_error_app1 by (rewrite repeat_length; exact L). reflexivity.
  - rewrite !nth_error_app2 by (rewrite repeat_length; exact L). rewrite repeat_length. apply IH; [|nia]. intros j Lj. exact (X (S j) ltac:(lia)).
Qed.
Lemma map2_alike {B C D} (f : B -> C -> D) n : forall a a' b b', starts_alike n a a' -> starts_alike n b b' -> starts_alike n (map2 f a b) (map2 f a' b').
Proof.
  induction n as [|n IH]; intros a a' b b' X Y; [intros i Li; lia|]. assert (E := X 0%nat ltac:(lia)). assert (F := Y 0%nat ltac:(lia)).
  destruct a as [|x a], a' as [|x' a']; try discriminate E; [apply alike_refl|]. destruct b as [|z b], b' as [|z' b']; try discriminate F; [apply alike_refl|].
  cbn [nth_error] in E, F. injection E as <-. injection F as <-. cbn [map2]. intros [|i] Li; [reflexivity|]. cbn [nth_error]. apply IH; [intros j Lj; exact (X (S j) ltac:(lia))|intros j Lj; exact (Y (S j) ltac:(lia))|lia].
Qed.
Lemma map_alike {B C} (f : B -> C) n l l' : starts_alike n l l' -> starts_alike n (map f l) (map f l').
Proof. intros X i L. rewrite !nth_error_map, (X i L). reflexivity. Qed.
Lemma widths_alike conc conc' dt dt' : starts_alike (S M) conc conc' -> starts_alike (S M) dt dt' -> starts_alike (S M * idtm cp) (ffer_series_conc cp conc dt) (ffer_series_conc cp' conc' dt').
Proof.
  intros X Y. unfold ffer_series_conc. apply (ffer_alike M cp cp' SD). unfold dfnpp_of_conc. rewrite id_same.
  assert (F3 : forall t, fnpp_from_temp cp' t = fnpp_from_temp cp t) by (intros; rewrite (proj1 SD); reflexivity). rewrite (map_ext _ _ F3).
  assert (F4 : forall t, (beta_f cp' * nln (t / preind cp') = beta_f cp * nln (t / preind cp))%num) by (intros; rewrite (proj1 SD); reflexivity). rewrite (map_ext _ _ F4).
  apply map2_alike; apply each_alike, map_alike; assumption.
Qed.
Lemma combine_alike {B C} n : forall (a a' : list B) (b b' : list C), starts_alike n a a' -> starts_alike n b b' -> starts_alike n (combine a b) (combine a' b').
Proof.
  induction n as [|n IH]; intros a a' b b' X Y; [intros i Li; lia|]. assert (E := X 0%nat ltac:(lia)). assert (F := Y 0%nat ltac:(lia)).
  destruct a as [|x a], a' as [|x' a']; try discriminate E; [apply alike_refl|]. destruct b as [|z b], b' as [|z' b']; try discriminate F; [apply alike_refl|].
  cbn [nth_error] in E, F. injection E as <-. injection F as <-. cbn [combine]. intros [|i] Li; [reflexivity|]. cbn [nth_error]. apply IH; [intros j Lj; exact (X (S j) ltac:(lia))|intros j Lj; exact (Y (S j) ltac:(lia))|lia].
Qed.
Lemma fst_combine {B C} n : forall (a a' : list B) (b b' : list C), starts_alike n a a' -> starts_alike n b b' -> starts_alike n (map fst (combine a b)) (map fst (combine a' b')).
Proof. intros a a' b b' X Y. apply map_alike, combine_alike; assumption. Qed.
Lemma snd_combine {B C} n : forall (a a' : list B) (b b' : list C), starts_alike n a a' -> starts_alike n b b' -> starts_alike n (map snd (combine a b)) (map snd (combine a' b')).
Proof. intros a a' b b' X Y. apply map_alike, combine_alike; assumption. Qed.
Lemma calculated_alike conc conc' dt dt' h h' : starts_alike (S M) conc conc' -> starts_alike (S M) dt dt' -> same_carbon M cp h h' ->
  let x := back_calculate cp h (combine conc dt) in let x' := back_calculate cp' h' (combine conc' dt') in starts_alike (S M) (map fst (snd x)) (map fst (snd x')) /\ arrays_same (fst x) (fst x').
Proof.
  intros X Y SC. cbv zeta. unfold back_calculate. assert (P : preind cp' = preind cp) by (rewrite (proj1 SD); reflexivity). rewrite P.
  assert (W := widths_alike _ _ _ _ (fst_combine _ _ _ _ _ X Y) (snd_combine _ _ _ _ _ X Y)).
  set (w := ffer_series_conc cp _ _) in *. set (w' := ffer_series_conc cp' _ _) in *.
  assert (WI : forall i, (i <= M)%nat -> nth (i * idtm cp) w (#0)%num = nth (i * idtm cp) w' (#0)%num).
  { intros i Li. destruct (Nat.eq_dec (idtm cp) 0) as [Z|NZ].
    - assert (Q : forall q a b, idtm q = 0%nat -> ffer_series_conc (A := A) q a b = []).
      { intros q a b Zq. unfold ffer_series_conc, dfnpp_of_conc. rewrite Zq. assert (R : forall B (l : list B), repeat_each 0 l = []) by (induction l; [reflexivity|assumption]). rewrite R. reflexivity. }
      unfold w, w'. rewrite !Q; [reflexivity|rewrite id_same; exact Z|exact Z].
    - apply (P_Span2.alike_nth _ _ _ _ _ W). nia. }
  destruct (back_alike w w' WI (combine conc dt) (combine conc' dt') h h' 0 (preind cp) ltac:(lia) (combine_alike _ _ _ _ _ X Y) SC) as [R1 R2]. split; [apply map_alike; exact R1|exact R2].
Qed.

(** ** The frame *)
Variable nan : A.
Lemma conc_shape (q : cc_pam A) (p : hpam A) emis cc st series r : conc_run p = true -> carbon_data nan q p emis cc st series = Ok r -> exists d dt a,
  dget (s_conc st) "CO2" = Some d /\ dget series "dtemp" = Some dt /\ years_tot q = List.length (years_of p) /\
  let b := back_calculate q cc (combine (map snd d) dt) in
  fr_cols (snd r) = [("Biosphere carbon flux", biosphere_flux q (ffer_series_conc q (map snd d) dt)); ("Ocean carbon flux", ocean_flux q (fst b));
    ("Mixed layer depth", map (mixed_layer_temp_feedback q) dt); ("CO2 solubility", map (solubility_temp_feedback q) dt); ("Net Primary Production", map (fnpp_from_temp q) dt);
    ("Airborne fraction CO2", a); ("Emissions", map fst (snd b))].
Proof.
  intros CR. unfold carbon_data. rewrite CR. unfold key at 1. destruct (dget (s_conc st) "CO2") as [d|]; cbn [rbind]; [|discriminate]. cbv zeta.
  unfold carbon_output. destruct (dget series "dtemp") as [dt|]; cbn [rbind]; [|discriminate].
  destruct (back_calculate q cc (combine (map snd d) dt)) as [h l] eqn:BC. unfold make_frame.
  match goal with |- context [if ?b then _ else _] => destruct b eqn:FB end; cbn [rbind]; [|discriminate]. cbn [snd fst]. unfold set_col. cbn [fr_index fr_cols].
  destruct (Nat.eqb (List.length (airborne _ _ _ _)) _); cbn [rbind]; [|discriminate]. cbn [fr_index fr_cols].
  destruct (Nat.eqb (List.length (map fst l)) _); cbn [rbind]; [|discriminate]. intros E; injection E as <-. cbn [snd fr_cols].
  exists d, dt. eexists. split; [reflexivity|]. split; [reflexivity|]. split; [|rewrite BC; reflexivity].
  cbn [forallb snd] in FB. apply Bool.andb_true_iff in FB as [FB _]. apply Nat.eqb_eq in FB. rewrite <- FB. unfold biosphere_flux, tab. now rewrite map_length, seq_length.
Qed.
Lemma conc_rows (p p' : hpam A) emis emis' cc cc' st st' series series' r r' d d' dt dt' : conc_run p = true -> conc_run p' = true ->
  carbon_data nan cp p emis cc st series = Ok r -> carbon_data nan cp' p' emis' cc' st' series' = Ok r' -> dget series "dtemp" = Some dt -> dget series' "dtemp" = Some dt' ->
  dget (s_conc st) "CO2" = Some d -> dget (s_conc st') "CO2" = Some d' -> rows_agree M (map snd d) (map snd d') -> rows_agree M dt dt' -> same_carbon M cp cc cc' ->
  (M < List.length (years_of p))%nat -> (M < List.length (years_of p'))%nat ->
  dkeys (fr_cols (snd r)) = ["Biosphere carbon flux"; "Ocean carbon flux"; "Mixed layer depth"; "CO2 solubility"; "Net Primary Production"; "Airborne fraction CO2"; "Emissions"] /\ dkeys (fr_cols (snd r')) = dkeys (fr_cols (snd r)) /\
  forall k v v', k <> "Airborne fraction CO2" -> dget (fr_cols (snd r)) k = Some v -> dget (fr_cols (snd r')) k = Some v' -> rows_agree M v v'.
Proof.
  intros CR CR' E E' D D' DC DC' RC RD SC L L'. destruct (conc_shape _ _ _ _ _ _ _ CR E) as (d0 & d1 & a & D0 & D1 & Y & EQ). destruct (conc_shape _ _ _ _ _ _ _ CR' E') as (d0' & d1' & a' & D0' & D1' & Y' & EQ').
  cbv zeta in EQ, EQ'. assert (d1 = dt) as -> by congruence. assert (d1' = dt') as -> by congruence. assert (d0 = d) as -> by congruence. assert (d0' = d') as -> by congruence. rewrite EQ, EQ'. clear EQ EQ'. split; [reflexivity|]. split; [reflexivity|].
  assert (SCO : starts_alike (S M) (map snd d) (map snd d')) by (intros i Li; apply RC; lia). assert (SDT : starts_alike (S M) dt dt') by (intros i Li; apply RD; lia).
  destruct (calculated_alike _ _ _ _ _ _ SCO SDT SC) as [BE [BS _]].
  set (b := back_calculate cp cc _) in *. set (b' := back_calculate cp' cc' _) in *.
  assert (SL : forall l k, year_slice cp' l k = year_slice cp l k) by (intros; unfold year_slice; rewrite id_same; reflexivity).
  assert (B : rows_agree M (biosphere_flux cp (ffer_series_conc cp (map snd d) dt)) (biosphere_flux cp' (ffer_series_conc cp' (map snd d') dt'))).
  { intros i Li. unfold biosphere_flux. rewrite !tab_at, Y, Y'. destruct (Nat.ltb_spec i (List.length (years_of p))), (Nat.ltb_spec i (List.length (years_of p'))); try lia.
    rewrite SL, id_same, (slice_alike cp M _ _ i (widths_alike _ _ _ _ SCO SDT) Li). reflexivity. }
  assert (OC : rows_agree M (ocean_flux cp (fst b)) (ocean_flux cp' (fst b'))).
  { intros i Li. unfold ocean_flux. rewrite !tab_at, Y, Y'. destruct (Nat.ltb_spec i (List.length (years_of p))), (Nat.ltb_spec i (List.length (years_of p'))); try lia.
    rewrite SL, id_same, (slice_alike cp M _ _ i BS Li). reflexivity. }
  assert (EM : rows_agree M (map fst (snd b)) (map fst (snd b'))) by (intros i Li; apply BE; lia).
  assert (F1 : forall t, mixed_layer_temp_feedback cp' t = mixed_layer_temp_feedback cp t) by (intros; rewrite (proj1 SD); reflexivity).
  assert (F2 : forall t, solubility_temp_feedback cp' t = solubility_temp_feedback cp t) by (intros; rewrite (proj1 SD); reflexivity).
  assert (F3 : forall t, fnpp_from_temp cp' t = fnpp_from_temp cp t) by (intros; rewrite (proj1 SD); reflexivity).
  rewrite (map_ext _ _ F1), (map_ext _ _ F2), (map_ext _ _ F3). clear -B OC EM RD.
  intros k v v' NK. cbn [dget]. repeat (match goal with |- context [String.eqb ?x k] => destruct (String.eqb_spec x k); [intros X X'; injection X as <-; injection X' as <-; try assumption; try (apply map_rows; exact RD); congruence|] end).
  discriminate.
Qed.
End Back.

(** ** The CO2 of a concentration run is what the file says *)
Section Given.
Context {A : Type} {N : Num A}.
Definition told (f : frame A) (z : Z) : A := if dmem (fr_cols f) "CO2" then match fr_get f "CO2" z with Ok v => v | Err _ => (#0)%num end else (#0)%num.
Lemma yset_twice {V} (d : list (Z * V)) y v : yset (yset d y v) y v = yset d y v.
Proof. induction d as [|[k w] d IH]; cbn [yset]; [rewrite Z.eqb_refl; reflexivity|]. destruct (Z.eqb_spec k y) as [->|NE]; cbn [yset]; [rewrite Z.eqb_refl; reflexivity|]. destruct (Z.eqb_spec k y); [contradiction|]. now rewrite IH. Qed.
Lemma yset_new {V} (d : list (Z * V)) y v : ~ In y (map fst d) -> yset d y v = d ++ [(y, v)].
Proof. induction d as [|[k w] d IH]; intros NI; [reflexivity|]. cbn [yset map fst In app] in *. destruct (Z.eqb_spec k y); [tauto|]. now rewrite IH by tauto. Qed.
Lemma fill_co2 (f : frame A) y (st st' : hst A) d : fill_one_row f y [] st = Ok st' -> dget (s_conc st) "CO2" = Some d ->
  dget (s_conc st') "CO2" = Some (yset d y (told f y)) /\ (dmem (fr_cols f) "CO2" = true -> exists v, fr_get f "CO2" y = Ok v).
Proof.
  intros E D. unfold fill_one_row in E.
  assert (G : forall l s s', fold_left (fun acc t => do s <- acc; if smem t [] then Ok s else if dmem (fr_cols f) t then do v <- fr_get f t y; conc_set s t y v else conc_set s t y (#0)%num) l (Ok s) = Ok s' ->
    forall e, dget (s_conc s) "CO2" = Some e -> dget (s_conc s') "CO2" = Some (if smem "CO2" l then yset e y (told f y) else e) /\ (smem "CO2" l = true -> dmem (fr_cols f) "CO2" = true -> exists v, fr_get f "CO2" y = Ok v)).
  { induction l as [|t l IH]; intros s s' X e De; cbn [fold_left] in X; [injection X as <-; split; [exact De|discriminate]|].
    cbn [rbind smem existsb] in X. match type of X with fold_left _ l ?x = _ => destruct x as [s1|] eqn:Q end. 2:{ rewrite P_Gas3.fold_err in X by reflexivity. discriminate. }
    assert (ST : forall w, conc_set s t y w = Ok s1 -> dget (s_conc s1) "CO2" = Some (if String.eqb t "CO2" then yset e y w else e)).
    { intros w. unfold conc_set, key. destruct (dget (s_conc s) t) as [e0|] eqn:G0; cbn [rbind]; [|discriminate]. intros Z; injection Z as <-. cbn [s_conc set_conc]. rewrite dget_dset.
      destruct (String.eqb_spec t "CO2") as [->|NE]; [|exact De]. congruence. }
    assert (S1 : dget (s_conc s1) "CO2" = Some (if String.eqb t "CO2" then yset e y (told f y) else e) /\ (t = "CO2" -> dmem (fr_cols f) "CO2" = true -> exists v, fr_get f "CO2" y = Ok v)).
    { destruct (dmem (fr_cols f) t) eqn:DM.
      - destruct (fr_get f t y) as [v|] eqn:FG; cbn [rbind] in Q; [|discriminate]. rewrite (ST _ Q). destruct (String.eqb_spec t "CO2") as [->|NE]; [|split; [reflexivity|contradiction]]. unfold told. rewrite DM, FG. split; [reflexivity|eauto].
      - rewrite (ST _ Q). destruct (String.eqb_spec t "CO2") as [->|NE]; [|split; [reflexivity|contradiction]]. unfold told. rewrite DM. split; [reflexivity|discriminate]. }
    destruct S1 as [S1 S2]. destruct (IH _ _ X _ S1) as [R1 R2]. unfold smem in *. cbn [existsb]. rewrite (String.eqb_sym "CO2" t).
    destruct (String.eqb_spec t "CO2") as [->|NE]; cbn [orb]; [|split; [exact R1|exact R2]]. split; [|intros _; exact (S2 eq_refl)].
    destruct (existsb (String.eqb "CO2") l); rewrite R1; [now rewrite yset_twice|reflexivity]. }
  assert (I : smem "CO2" (dkeys (s_conc st)) = true).
  { unfold smem. apply existsb_exists. exists "CO2". split; [|reflexivity]. apply dget_In_keys, dmem_true. eauto. }
  destruct (G _ _ _ E _ D) as [R1 R2]. rewrite I in R1. split; [exact R1|exact (R2 I)].
Qed.
Lemma given_trace (CC : Type) (year : CC -> nat -> A -> A -> CC * A) sc (c : inst A) n h l h' : d_start c = nystart (c_p sc) -> conc_run (c_p sc) = true ->
  htrace c (any_emi2conc CC year sc) (any_conc2forc CC sc) n h l h' -> forall d, dget (s_conc (snd h)) "CO2" = Some d -> map fst d = zrange (nystart (c_p sc)) n ->
  fst h' = fst h /\ dget (s_conc (snd h')) "CO2" = Some (d ++ map (fun z => (z, told (c_conc sc) z)) (zrange (nystart (c_p sc) + Z.of_nat n) (List.length l))) /\
  (dmem (fr_cols (c_conc sc)) "CO2" = true -> forall i, (n <= i < n + List.length l)%nat -> exists v, fr_get (c_conc sc) "CO2" (nystart (c_p sc) + Z.of_nat i) = Ok v).
Proof.
  intros DS CR T. induction T as [n h|n h fb luc sun q h1 h2 l h3 E1 _ _ E2 T IH]; intros d D F.
  { cbn [List.length]. unfold zrange. cbn [seq map]. rewrite app_nil_r. split; [reflexivity|]. split; [exact D|]. intros _ i Li. lia. }
  rewrite DS in *. unfold any_emi2conc in E1. destruct h as [cc st], h1 as [cc1 st1], h2 as [cc2 st2]. cbn [fst snd] in *. unfold emi2conc in E1. rewrite CR in E1.
  destruct (fill_one_row (c_conc sc) _ [] st) as [st1'|] eqn:FR; cbn [rbind] in E1; [|discriminate]. injection E1 as <- <-. destruct (fill_co2 _ _ _ _ _ FR D) as [D1 V1].
  unfold any_conc2forc in E2. cbn [fst snd] in E2. destruct (conc2forc _ _ _ _ _ _ _ _ st1') as [[q' st2']|] eqn:E3; cbn [rbind fst snd] in E2; [|discriminate]. inversion E2; subst cc2 st2' q'. clear E2.
  assert (D2 : dget (s_conc st2) "CO2" = dget (s_conc st1') "CO2") by (apply (P_Box2.oo_conc2forc _ _ _ _ _ _ _ _ _ _ _ E3); discriminate).
  rewrite yset_new in D1 by (rewrite F, P_Input2.zrange_In; lia). rewrite D1 in D2.
  destruct (IH _ D2) as (R1 & R2 & R3). { rewrite map_app, F. cbn [map fst]. symmetry. apply P_Box2.zrange_end. }
  split; [exact R1|]. split.
  - rewrite R2, <- app_assoc. cbn [List.length]. rewrite P_Gas2.zrange_S. cbn [map app]. replace (nystart (c_p sc) + Z.of_nat (S n))%Z with (nystart (c_p sc) + Z.of_nat n + 1)%Z by lia. reflexivity.
  - intros DM i Li. cbn [List.length] in Li. destruct (Nat.eq_dec i n) as [->|NE]; [exact (V1 DM)|]. apply (R3 DM). lia.
Qed.
Lemma reset_years (p : hpam A) gt erf d : dget (s_conc (reset_arrays p gt erf)) "CO2" = Some d -> d = [].
Proof.
  intros D0. apply dget_Some_In in D0. unfold reset_arrays in D0. cbn [s_conc] in D0. apply in_map_iff in D0. destruct D0 as [k [Q _]]. injection Q as _ <-. reflexivity.
Qed.
End Given.

Section Whole.
Context {A : Type} {N : Num A} {T : Type}.
Variables (nan : A) (th : thermal A T) (gt : dict (gas A)) (t0 : T).
Lemma c91_conc (cp cp' : cc_pam A) (cc0 cc0' : cc_state A) M sc sc' c c' r r' out out' : agree_span M sc sc' c c' ->
  same_decay M cp cp' -> same_carbon M cp cc0 cc0' -> prepared gt sc -> prepared gt sc' -> wf gt -> distinct_outputs (t_names th) -> conc_run (c_p sc) = true ->
  coupled_run nan cp sc th c gt t0 cc0 true true r = out -> coupled_run nan cp' sc' th c' gt t0 cc0' true true r' = out' -> o_exn out = None -> o_exn out' = None ->
  exists f f', dget (o_results out) "carbon cycle" = Some (Fr f) /\ dget (o_results out') "carbon cycle" = Some (Fr f') /\ dkeys (fr_cols f) = ["Biosphere carbon flux"; "Ocean carbon flux"; "Mixed layer depth"; "CO2 solubility"; "Net Primary Production"; "Airborne fraction CO2"; "Emissions"] /\ dkeys (fr_cols f') = dkeys (fr_cols f) /\
    forall k v v', k <> "Airborne fraction CO2" -> dget (fr_cols f) k = Some v -> dget (fr_cols f') k = Some v' -> rows_agree M v v'.
Proof.
  intros U SD SC P P' W DO CR E E' X X'. destruct (P_Span3.c91_before gt M sc sc' c c' U (or_introl CR) P P' W) as [_ AF].
  destruct P as [PO _ _ _], P' as [PO' _ _ _]. destruct (P_Coupled8.erf_keys_in gt _ _ _ _ _ _ PO W) as [_ [W2 _]]. destruct (P_Coupled8.erf_keys_in gt _ _ _ _ _ _ PO' W) as [_ [W2' _]].
  destruct (P_Span2.runs nan (cc_state A) (co2em2conc cp) (co2em2conc cp') (carbon_data nan cp (c_p sc) (c_emis sc)) (carbon_data nan cp' (c_p sc') (c_emis sc')) (same_carbon M cp) sc sc' th c c' gt t0 cc0 cc0' M U
    (fun n a a' em dt L R => P_Span2.same_co2 M cp cp' SD a a' n em dt R L) SC AF W2 W2' DO true true r r' out out' E E' X X')
    as (s & s' & series & series' & fs & fs' & tr & tr' & h0 & h0' & l & l' & AR & AR' & OR & OR' & C & C' & LT & LT' & EQ & _ & _ & _ & _ & K0 & _ & K0' & _ & _ & FB & FB' & [lw [HT LW]] & [lw' [HT' LW']]).
  destruct (P_Coupled6.frames_of nan _ _ _ _ _ _ _ AR) as (_ & _ & _ & _ & _ & _ & _ & _ & _ & WFS). destruct (P_Coupled6.frames_of nan _ _ _ _ _ _ _ AR') as (_ & _ & _ & _ & _ & _ & _ & _ & _ & WFS').
  unfold any_add_results in AR, AR'.
  destruct (forcing_frame (c_p sc) _ _) as [a1|]; cbn [rbind] in AR; [|discriminate]. destruct (emission_frame (c_p sc) _) as [a2|]; cbn [rbind] in AR; [|discriminate]. destruct (concentration_frame nan (c_p sc) _ _) as [a3|]; cbn [rbind] in AR; [|discriminate].
  destruct (forcing_frame (c_p sc') _ _) as [b1|]; cbn [rbind] in AR'; [|discriminate]. destruct (emission_frame (c_p sc') _) as [b2|]; cbn [rbind] in AR'; [|discriminate]. destruct (concentration_frame nan (c_p sc') _ _) as [b3|]; cbn [rbind] in AR'; [|discriminate].
  cbv zeta in AR, AR'. destruct (carbon_data nan cp _ _ _ _ _) as [q|] eqn:CD; cbn [rbind] in AR; [|discriminate]. destruct (carbon_data nan cp' _ _ _ _ _) as [q'|] eqn:CD'; cbn [rbind] in AR'; [|discriminate].
  injection AR as <-. injection AR' as <-. exists (snd q), (snd q'). unfold handler in *. rewrite OR, OR', !dget_dupdate by assumption. split; [reflexivity|]. split; [reflexivity|].
  destruct (first_out th _ _ _ _ FB FB') as (o & col & col' & IO & A1 & A2 & D & D').
  assert (RW : (M < List.length (years_of (c_p sc)))%nat /\ (M < List.length (years_of (c_p sc')))%nat) by exact (P_Span2.rows_p sc sc' c c' M U).
  assert (CR' : conc_run (c_p sc') = true) by (rewrite (sp_p _ _ _ _ _ U); exact CR).
  assert (NS : nystart (c_p sc') = nystart (c_p sc)) by (rewrite (sp_p _ _ _ _ _ U); reflexivity).
  assert (S' : d_start c' = nystart (c_p sc')) by (rewrite NS; apply (sp_start' _ _ _ _ _ U)).
  destruct (conc_shape nan _ _ _ _ _ _ _ CR CD) as (dC & _ & _ & DC & _). destruct (conc_shape nan _ _ _ _ _ _ _ CR' CD') as (dC' & _ & _ & DC' & _).
  assert (Z0 : exists z, dget (s_conc (reset_arrays (c_p sc) gt (c_erf sc))) "CO2" = Some z) by (apply dmem_true, dget_In_keys; rewrite <- K0; apply dget_In_keys, dmem_true; eauto).
  assert (Z0' : exists z, dget (s_conc (reset_arrays (c_p sc') gt (c_erf sc'))) "CO2" = Some z) by (apply dmem_true, dget_In_keys; rewrite <- K0'; apply dget_In_keys, dmem_true; eauto).
  destruct Z0 as [z Z0], Z0' as [z' Z0']. rewrite (reset_years _ _ _ _ Z0) in Z0. rewrite (reset_years _ _ _ _ Z0') in Z0'. clear z z'.
  destruct (given_trace _ _ sc c 0 _ lw _ (sp_start _ _ _ _ _ U) CR HT [] Z0 eq_refl) as (F1 & G1 & V1). destruct (given_trace _ _ sc' c' 0 _ lw' _ S' CR' HT' [] Z0' eq_refl) as (F1' & G1' & V1').
  cbn [fst app] in F1, F1', G1, G1'. rewrite Z.add_0_r in G1, G1'. rewrite NS in G1', V1'. rewrite LW in G1, V1. rewrite LW' in G1', V1'. cbn [plus] in V1, V1'.
  assert (LS := sp_rows _ _ _ _ _ U). assert (LS' := sp_rows' _ _ _ _ _ U).
  assert (TO : forall i, (i <= M)%nat -> told (c_conc sc) (nystart (c_p sc) + Z.of_nat i) = told (c_conc sc') (nystart (c_p sc) + Z.of_nat i)).
  { intros i Li. destruct (sp_conc _ _ _ _ _ U) as [KK AG]. unfold told. rewrite <- (P_Coupled5.keys_dmem _ _ "CO2" KK). destruct (dmem (fr_cols (c_conc sc)) "CO2") eqn:DM; [|reflexivity].
    rewrite <- (AG "CO2" (nystart (c_p sc) + Z.of_nat i)%Z); [reflexivity|]. left. lia. }
  eapply (conc_rows M cp cp' SD nan (c_p sc) (c_p sc')); try eassumption.
  - assert (forall n, map snd (map (fun z => (z, told (c_conc sc) z)) (zrange (nystart (c_p sc)) n)) = map (told (c_conc sc)) (zrange (nystart (c_p sc)) n)) as -> by (intros; rewrite map_map; reflexivity).
    assert (forall n, map snd (map (fun z => (z, told (c_conc sc') z)) (zrange (nystart (c_p sc)) n)) = map (told (c_conc sc')) (zrange (nystart (c_p sc)) n)) as -> by (intros; rewrite map_map; reflexivity).
    intros i Li. unfold zrange. rewrite !nth_error_map, !P_Gas4.seq_nth_error by lia. cbn [option_map plus]. now rewrite (TO i Li).
  - destruct (C o IO) as (k1 & K1 & _ & K3). destruct (C' o IO) as (k1' & K1' & _ & K3'). assert (k1 = col) as -> by congruence. assert (k1' = col') as -> by congruence.
    intros i Li. specialize (EQ i Li). destruct (nth_error tr i) as [[v f]|] eqn:T1; [|apply nth_error_None in T1; lia]. rewrite (K3 i v f T1), (K3' i v f (eq_sym EQ)).
    unfold cell. rewrite (sp_sun _ _ _ _ _ U i Li), (sp_vn _ _ _ _ _ U i Li), (sp_vs _ _ _ _ _ U i Li). reflexivity.
  - rewrite F1, F1'. exact SC.
  - exact (proj1 RW).
  - exact (proj2 RW).
Qed.
End Whole.
