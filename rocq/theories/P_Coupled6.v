(** * P_Coupled6: two runs whose inputs agree up to a year (C85) *)
From Coq Require Import Lia.
From Verif Require Import PyBase PyBaseFacts Num M_Gas M_TwoLayer M_Forcing M_Carbon M_CarbonBack M_Driver M_Results M_BoxRun Spec_Gas Spec_Driver Spec_Reader Spec_Results Spec_Coupled
  P_Gas3 P_Results P_Results2 P_Driver P_Driver2 P_Driver3 P_Driver4 P_Coupled P_Coupled2 P_Coupled5.
From Verif Require P_Input2 P_Gas2 Spec_Forc.

(** ** The loop *)
Section Loop.
Context {A : Type} {N : Num A} {T : Type} (th : thermal A T) (c c' : inst A) {H : Type}
  (e2c e2c' : H -> Z -> option (dict A) -> result H) (c2f c2f' : H -> Z -> A -> A -> result (H * (A * A * A * A))) (M : nat).
Hypothesis RF : d_rf c = None.
Hypothesis RF' : d_rf c' = None.
Hypothesis ST : d_start c' = d_start c.
Hypothesis IN : forall n, (n <= M)%nat -> nth_error (d_luc c) n = nth_error (d_luc c') n /\ nth_error (d_sun c) n = nth_error (d_sun c') n /\
  nth_error (d_vn c) n = nth_error (d_vn c') n /\ nth_error (d_vs c) n = nth_error (d_vs c') n.
Hypothesis HE : forall n h fb, (n <= M)%nat -> e2c h (d_start c + Z.of_nat n)%Z fb = e2c' h (d_start c + Z.of_nat n)%Z fb.
Hypothesis HC : forall n h luc sun, (n <= M)%nat -> c2f h (d_start c + Z.of_nat n)%Z luc sun = c2f' h (d_start c + Z.of_nat n)%Z luc sun.

Lemma joint fl m : forall s s' n sf sf', ((n <= M)%nat -> l_t s = l_t s' /\ l_h s = l_h s' /\ l_values s = l_values s') ->
  driver_years T th c H e2c c2f fl s (zrange (d_start c + Z.of_nat n) m) = (sf, None) ->
  driver_years T th c' H e2c' c2f' fl s' (zrange (d_start c + Z.of_nat n) m) = (sf', None) ->
  exists tr tr' l l', steps th c e2c c2f fl s n tr sf /\ steps th c' e2c' c2f' fl s' n tr' sf' /\ List.length tr = m /\ List.length tr' = m /\
    htrace c e2c c2f n (l_h s) l (l_h sf) /\ htrace c' e2c' c2f' n (l_h s') l' (l_h sf') /\ List.length l = m /\ List.length l' = m /\
    forall k, (n + k <= M)%nat -> nth_error tr k = nth_error tr' k /\ nth_error l k = nth_error l' k.
Proof.
  induction m as [|m IH]; intros s s' n sf sf' EQ E E'.
  - cbn in E, E'. injection E as <-. injection E' as <-. exists [], [], [], []. split; [constructor|]. split; [constructor|]. split; [reflexivity|]. split; [reflexivity|]. split; [constructor|]. split; [constructor|]. split; [reflexivity|]. split; [reflexivity|]. intros k _. split; reflexivity.
  - destruct (Nat.leb_spec n M) as [Ln|Ln].
    + destruct (EQ Ln) as [ET [EH EV]]. rewrite P_Driver.zrange_S in E, E'. cbn [driver_years] in E, E'.
      destruct (driver_year T th c H e2c c2f fl s (d_start c + Z.of_nat n)%Z) as [s1|e] eqn:D; [|discriminate].
      destruct (driver_year T th c' H e2c' c2f' fl s' (d_start c + Z.of_nat n)%Z) as [s1'|e] eqn:D'; [|discriminate].
      replace (d_start c + Z.of_nat n + 1)%Z with (d_start c + Z.of_nat (S n))%Z in E, E' by lia.
      destruct (year_parts th c e2c c2f fl _ _ _ D) as (v & f & i & h & T1 & V & Hh & AY & B1 & B2 & P). rewrite RF in P. rewrite row_of in *.
      destruct P as (h1 & luc & sun & P1 & P2 & P3 & P4). subst h.
      rewrite <- ST in D'. destruct (year_parts th c' e2c' c2f' fl _ _ _ D') as (v' & f' & i' & h' & T1' & V' & Hh' & AY' & B1' & B2' & P'). rewrite RF' in P'. rewrite row_of in *.
      rewrite ST in P', D'. destruct P' as (h1' & luc' & sun' & P1' & P2' & P3' & P4'). subst h'.
      destruct (IN n Ln) as [I1 [I2 [I3 I4]]].
      assert (luc' = luc) by congruence. assert (sun' = sun) by congruence. subst luc' sun'.
      rewrite <- HE, <- EH, <- EV in P1' by exact Ln. assert (h1' = h1) by congruence. subst h1'.
      rewrite <- HC in P4' by exact Ln. rewrite P4 in P4'. injection P4' as Q1 Q2 Q3 Q4 Q5.
      assert (EI : i' = i). { destruct i as [w nh sh vn vs], i' as [w' nh' sh' vn' vs']. cbn in *. congruence. }
      subst i'. rewrite <- ET, T1 in T1'. injection T1' as QT QV. subst v' f'.
      destruct (IH s1 s1' (S n) sf sf') as (tr & tr' & l & l' & X1 & X2 & X3 & X4 & X5 & X6 & X7 & X8 & X9); try assumption.
      { intros _. split; [exact QT|]. split; [congruence|congruence]. }
      exists ((v, f) :: tr), ((v, f) :: tr'), ((feedback_arg fl (l_values s), luc, sun, (f, i_nh i, i_sh i, i_w i)) :: l), ((feedback_arg fl (l_values s), luc, sun, (f, i_nh i, i_sh i, i_w i)) :: l').
      split; [econstructor; eassumption|]. split; [econstructor; try eassumption; rewrite ST; exact D'|]. split; [cbn; lia|]. split; [cbn; lia|].
      split; [econstructor; eassumption|]. split.
      { econstructor; rewrite ?ST; [rewrite <- HE, <- EH by exact Ln; exact P1|exact P2'|exact P3'|rewrite <- HC by exact Ln; rewrite P4, Q1; reflexivity|exact X6]. }
      split; [cbn; lia|]. split; [cbn; lia|]. intros [|k] Lk; [split; reflexivity|]. cbn [nth_error]. apply X9. lia.
    + assert (E2 := E'). rewrite <- ST in E2.
      destruct (years_trace th c e2c c2f fl (S m) RF s n sf E) as (tr & l & X1 & X2 & X3 & X4 & _).
      destruct (years_trace th c' e2c' c2f' fl (S m) RF' s' n sf' E2) as (tr' & l' & Y1 & Y2 & Y3 & Y4 & _).
      exists tr, tr', l, l'. repeat (split; [assumption|]). intros k Lk. lia.
Qed.

(** the handler after year [M] *)
Lemma mid n h l hf l' hf' : htrace c e2c c2f n h l hf -> htrace c' e2c' c2f' n h l' hf' -> (n <= S M)%nat -> (S M <= n + List.length l)%nat -> (S M <= n + List.length l')%nat ->
  (forall k, (n + k <= M)%nat -> nth_error l k = nth_error l' k) ->
  exists h0 l1 l1', htrace c e2c c2f (S M) h0 l1 hf /\ htrace c' e2c' c2f' (S M) h0 l1' hf'.
Proof.
  intros X. revert l' hf'. induction X as [n h|n h fb luc sun q h1 h2 l h3 E1 L S E2 X IH]; intros l' hf' X' Ln L1 L1' EQ.
  - cbn in L1. assert (n = Datatypes.S M) by lia. subst n. exists h, [], l'. split; [constructor|exact X'].
  - destruct (Nat.eq_dec n (Datatypes.S M)) as [->|Ne].
    { exists h, ((fb, luc, sun, q) :: l), l'. split; [econstructor; eassumption|exact X']. }
    assert (Lm : (n <= M)%nat) by lia. inversion X' as [|n' h' fb' luc' sun' q' h1' h2' l0 h3' E1' L' S' E2' X1']; subst; [cbn in L1'; lia|].
    assert (Q := EQ 0%nat ltac:(lia)). cbn [nth_error] in Q. injection Q as <- <- <- <-. rewrite ST in E1', E2'. rewrite <- HE in E1' by exact Lm. rewrite <- HC in E2' by exact Lm.
    rewrite E1 in E1'. injection E1' as <-. rewrite E2 in E2'. injection E2' as <-.
    cbn in L1, L1'. eapply IH; try eassumption; try lia. intros k Lk. apply (EQ (Datatypes.S k)). lia.
Qed.
End Loop.

(** ** The handler of the package *)
Section Past.
Context {A : Type} {N : Num A}.
Variables (CC : Type) (year : CC -> nat -> A -> A -> CC * A) (sc : scenario A) (c : inst A).
Notation p := (c_p sc).
Lemma trace_past n h l h' : htrace c (any_emi2conc CC year sc) (any_conc2forc CC sc) n h l h' -> d_start c = nystart p ->
  dkeys (s_conc (snd h')) = dkeys (s_conc (snd h)) /\ dkeys (s_forc (snd h')) = dkeys (s_forc (snd h)) /\
  (forall k z, (z < nystart p + Z.of_nat n)%Z -> conc_get (snd h') k z = conc_get (snd h) k z) /\
  (forall k v v' i, dget (s_forc (snd h)) k = Some v -> dget (s_forc (snd h')) k = Some v' -> (i < n)%nat -> nth_error v' i = nth_error v i).
Proof.
  intros X DS. induction X as [n h|n h fb luc sun q h1 h2 l h3 E1 _ _ E2 X IH].
  - split; [reflexivity|]. split; [reflexivity|]. split; [reflexivity|]. intros k v v' i E E' _. congruence.
  - rewrite DS in E1, E2. destruct h as [cc st], h1 as [cc1 st1], h2 as [cc2 st2]. unfold any_emi2conc in E1. cbn [fst snd] in *.
    apply emi2conc_reach in E1. unfold any_conc2forc in E2. cbn [fst snd] in E2.
    destruct (conc2forc _ _ _ _ _ _ _ _ st1) as [[q' st2']|] eqn:E3; cbn [rbind fst snd] in E2; [|discriminate]. inversion E2; subst cc2 st2' q'. clear E2.
    apply conc2forc_reach in E3. assert (R := r_trans _ _ _ _ _ E1 E3). apply reach_past in R. destruct R as [K1 [F1 [C1 V1]]]. destruct IH as [K2 [F2 [C2 V2]]].
    split; [congruence|]. split; [congruence|]. split.
    + intros k z L. rewrite C2 by lia. apply C1. lia.
    + intros k v v' i E E' L. assert (I : In k (dkeys (s_forc st2))) by (rewrite F1; apply dget_In_keys, dmem_true; eauto). apply dget_In_keys, dmem_true in I. destruct I as [w W].
      rewrite (V2 k w v' i W E') by lia. apply (V1 k v w i E W). unfold forc_ix. lia.
Qed.
Lemma trace_gas n h l h' : htrace c (any_emi2conc CC year sc) (any_conc2forc CC sc) n h l h' -> dkeys (s_gas (snd h')) = dkeys (s_gas (snd h)).
Proof.
  intros X. induction X as [n h|n h fb luc sun q h1 h2 l h3 E1 _ _ E2 X IH]; [reflexivity|]. rewrite IH.
  destruct h as [cc st], h1 as [cc1 st1], h2 as [cc2 st2]. unfold any_emi2conc in E1. cbn [fst snd] in *.
  apply emi2conc_reach in E1. unfold any_conc2forc in E2. cbn [fst snd] in E2.
  destruct (conc2forc _ _ _ _ _ _ _ _ st1) as [[q' st2']|] eqn:E3; cbn [rbind fst snd] in E2; [|discriminate]. inversion E2; subst cc2 st2' q'. clear E2.
  apply conc2forc_reach in E3. exact (reach_gas _ _ _ _ (r_trans _ _ _ _ _ E1 E3)).
Qed.
End Past.
Section Frames.
Context {A : Type} {N : Num A}.
Variables (nan : A) (CC : Type) (data : CC -> hst A -> dict (list A) -> result (CC * frame A)).
Lemma frames_of sc0 h carbon series fs : any_add_results nan CC data sc0 h carbon series = Ok fs -> exists forc em cf rest,
  forcing_frame (c_p sc0) (snd h) (c_erf sc0) = Ok forc /\ emission_frame (c_p sc0) (c_emis sc0) = Ok em /\ concentration_frame nan (c_p sc0) (snd h) (c_pc sc0) = Ok cf /\
  fs = [("emissions", em); ("concentrations", cf); ("forcing", forc)] ++ rest /\ (rest = [] \/ exists v, rest = [("carbon cycle", v)]) /\
  wf (map (fun kv : string * frame A => (fst kv, Fr (snd kv))) fs).
Proof.
  unfold any_add_results. destruct (forcing_frame _ _ _) as [forc|]; cbn [rbind]; [|discriminate].
  destruct (emission_frame _ _) as [em|]; cbn [rbind]; [|discriminate]. destruct (concentration_frame _ _ _ _) as [cf|]; cbn [rbind]; [|discriminate]. cbv zeta.
  intros AR. exists forc, em, cf.
  assert (FS : exists rest, fs = [("emissions", em); ("concentrations", cf); ("forcing", forc)] ++ rest /\ (rest = [] \/ exists v, rest = [("carbon cycle", v)])).
  { destruct carbon; [|exists []; inversion AR; split; [reflexivity|left; reflexivity]].
    destruct (data _ _ _) as [cd|]; cbn [rbind] in AR; [|discriminate]. inversion AR. exists [("carbon cycle", snd cd)]. split; [reflexivity|]. right; eauto. }
  destruct FS as [rest [FS RS]]. exists rest. repeat (split; [first [reflexivity|assumption]|]). rewrite FS. destruct RS as [->|[v ->]]; apply nodupb_NoDup; reflexivity.
Qed.
End Frames.

Section Runs.
Context {A : Type} {N : Num A} {T : Type}.
Variables (nan : A) (cp : cc_pam A) (sc sc' : scenario A) (th : thermal A T) (c c' : inst A) (gt : dict (gas A)) (t0 : T) (cc0 : cc_state A) (M : nat).
Notation p := (c_p sc).
Notation y := (nystart p + Z.of_nat M)%Z.
Hypothesis RF : d_rf c = None.
Hypothesis RF' : d_rf c' = None.
Hypothesis ST : d_start c = nystart p.
Hypothesis EN : d_end c = nyend p.
Hypothesis ST' : d_start c' = d_start c.
Hypothesis EN' : d_end c' = d_end c.
Hypothesis LM : (M < d_years c)%nat.
Hypothesis PP : c_p sc' = p.
Hypothesis IN : forall n, (n <= M)%nat -> nth_error (d_luc c) n = nth_error (d_luc c') n /\ nth_error (d_sun c) n = nth_error (d_sun c') n /\
  nth_error (d_vn c) n = nth_error (d_vn c') n /\ nth_error (d_vs c) n = nth_error (d_vs c') n.
Hypothesis AC : agree_on (conc_until p y) (c_conc sc) (c_conc sc').
Hypothesis AE : agree_on (emis_until p y) (c_emis sc) (c_emis sc').
Hypothesis A4 : agree_on (until y) (c_nat_ch4 sc) (c_nat_ch4 sc').
Hypothesis A2 : agree_on (until y) (c_nat_n2o sc) (c_nat_n2o sc').
Hypothesis AF : agree_on (until y) (c_erf sc) (c_erf sc').
Hypothesis WF : wf (fr_cols (c_erf sc)).
Hypothesis WF' : wf (fr_cols (c_erf sc')).
Hypothesis AP : forall z, (z <= y)%Z -> filter (fun r => Z.eqb (fst (fst r)) z) (Spec_Forc.pert_rows (c_pert sc)) = filter (fun r => Z.eqb (fst (fst r)) z) (Spec_Forc.pert_rows (c_pert sc')).
Hypothesis DO : distinct_outputs (t_names th).

Lemma weaken {V} (s s' : string -> Z -> Prop) (f f' : frame V) : (forall k z, s' k z -> s k z) -> agree_on s f f' -> agree_on s' f f'.
Proof. intros I [K V']. split; [exact K|]. intros k z S. apply V', I, S. Qed.

Lemma same_e2c n h fb : (n <= M)%nat -> h_emi2conc cp sc h (d_start c + Z.of_nat n)%Z fb = h_emi2conc cp sc' h (d_start c + Z.of_nat n)%Z fb.
Proof.
  intros L. unfold h_emi2conc, h_co2. rewrite PP. rewrite ST. apply emi2conc_agree.
  - eapply weaken; [|exact AC]. unfold conc_until. intros k z [X|X]; [left; lia|right; exact X].
  - eapply weaken; [|exact AE]. unfold emis_until. intros k z [X|X]; [left; lia|right; exact X].
  - eapply weaken; [|exact A4]. unfold until. intros k z X. lia.
  - eapply weaken; [|exact A2]. unfold until. intros k z X. lia.
Qed.
Lemma same_c2f n h luc sun : (n <= M)%nat -> h_conc2forc sc h (d_start c + Z.of_nat n)%Z luc sun = h_conc2forc sc' h (d_start c + Z.of_nat n)%Z luc sun.
Proof.
  intros L. unfold h_conc2forc. rewrite PP. rewrite ST. rewrite (conc2forc_agree p (c_conc sc) (c_conc sc') (c_emis sc) (c_emis sc') (c_erf sc) (c_erf sc') (nystart p + Z.of_nat n)%Z) with (pert' := c_pert sc').
  - reflexivity.
  - eapply weaken; [|exact AC]. unfold conc_until. intros k z [X|X]; [left; lia|right; exact X].
  - eapply weaken; [|exact AE]. unfold emis_until. intros k z [X|X]; [left; lia|right; exact X].
  - exact WF.
  - exact WF'.
  - eapply weaken; [|exact AF]. unfold until. intros k z X. lia.
  - lia.
  - apply AP. lia.
Qed.
Lemma same_reset : reset_arrays p gt (c_erf sc) = reset_arrays p gt (c_erf sc').
Proof.
  unfold reset_arrays, gases_spicy. rewrite (filter_ext (fun k => negb (dmem (fr_cols (c_erf sc)) k)) (fun k => negb (dmem (fr_cols (c_erf sc')) k))); [reflexivity|].
  intros k. rewrite (keys_dmem _ _ k (proj1 AF)). reflexivity.
Qed.

Lemma runs carbon carbon' r r' out out' : coupled_run nan cp sc th c gt t0 cc0 true carbon r = out -> coupled_run nan cp sc' th c' gt t0 cc0 true carbon' r' = out' ->
  o_exn out = None -> o_exn out' = None ->
  exists (s s' : loop A T (handler A)) series series' fs fs' tr tr' h0 l l', h_add_results nan cp sc (l_h s) carbon series = Ok fs /\ h_add_results nan cp sc' (l_h s') carbon' series' = Ok fs' /\
    o_results out = dupdate (l_res s) (map (fun kv => (fst kv, Fr (snd kv))) fs) /\ o_results out' = dupdate (l_res s') (map (fun kv => (fst kv, Fr (snd kv))) fs') /\
    complete (t_names th) c tr (l_res s) /\ complete (t_names th) c' tr' (l_res s') /\ List.length tr = d_years c /\ List.length tr' = d_years c /\
    (forall k, (k <= M)%nat -> nth_error tr k = nth_error tr' k) /\
    htrace c (h_emi2conc cp sc) (h_conc2forc sc) (S M) h0 l (l_h s) /\ htrace c' (h_emi2conc cp sc') (h_conc2forc sc') (S M) h0 l' (l_h s') /\
    dkeys (s_forc (snd (l_h s))) = dkeys (s_forc (reset_arrays p gt (c_erf sc))) /\ dkeys (s_conc (snd (l_h s))) = dkeys (s_conc (reset_arrays p gt (c_erf sc))) /\
    dkeys (s_gas (snd (l_h s))) = dkeys gt /\ dkeys (s_gas (snd (l_h s'))) = dkeys gt.
Proof.
  intros E E' X X'.
  destruct (run_parts nan cp sc th c gt t0 cc0 carbon r out RF E X) as [s [series [fs [RY [AR [_ OR]]]]]].
  destruct (run_parts nan cp sc' th c' gt t0 cc0 carbon' r' out' RF' E' X') as [s' [series' [fs' [RY' [AR' [_ OR']]]]]].
  rewrite PP, <- same_reset in RY'. unfold run_years, year_list in RY, RY'.
  assert (DY : d_years c' = d_years c) by (unfold d_years; rewrite ST', EN'; reflexivity).
  rewrite DY, ST' in RY'. rewrite <- (Z.add_0_r (d_start c)) in RY at 1. rewrite <- (Z.add_0_r (d_start c)) in RY' at 1.
  destruct (fun EQ => joint th c c' (h_emi2conc cp sc) (h_emi2conc cp sc') (h_conc2forc sc) (h_conc2forc sc') M RF RF' ST' IN same_e2c same_c2f h_feedbacks (d_years c) _ _ 0%nat _ _ EQ RY RY')
    as (tr & tr' & l & l' & X1 & X2 & X3 & X4 & X5 & X6 & X7 & X8 & X9).
  { intros _. cbn. auto. }
  cbn [l_h] in X5, X6.
  destruct (mid c c' (h_emi2conc cp sc) (h_emi2conc cp sc') (h_conc2forc sc) (h_conc2forc sc') M ST' same_e2c same_c2f 0 _ l _ l' _ X5 X6 ltac:(lia) ltac:(lia) ltac:(lia) (fun k L => proj2 (X9 k L))) as (h0 & l1 & l1' & Y1 & Y2).
  destruct (trace_past (cc_state A) (co2em2conc cp) sc c _ _ _ _ X5 ST) as [K1 [K2 _]].
  exists s, s', series, series', fs, fs', tr, tr', h0, l1, l1'. repeat (split; [assumption|]). split.
  { eapply filled_complete; [|exact X3]. change tr with ([] ++ tr). eapply (steps_filled th c DO); [exact X1 | reflexivity | apply filled_init | cbn; lia]. }
  split.
  { eapply filled_complete; [|lia]. change tr' with ([] ++ tr'). eapply (steps_filled th c' DO); [exact X2 | reflexivity | apply filled_init | cbn; lia]. }
  split; [exact X3|]. split; [exact X4|]. split; [intros k L; apply X9; lia|]. split; [exact Y1|]. split; [exact Y2|]. split; [exact K2|]. split; [exact K1|]. split; [exact (trace_gas (cc_state A) (co2em2conc cp) sc c _ _ _ _ X5)|exact (trace_gas (cc_state A) (co2em2conc cp) sc' c' _ _ _ _ X6)].
Qed.

Lemma c85_arrays carbon carbon' r r' out out' : ~ In "emissions" (output_names (t_names th)) -> ~ In "concentrations" (output_names (t_names th)) ->
  ~ In "forcing" (output_names (t_names th)) -> ~ In "carbon cycle" (output_names (t_names th)) ->
  coupled_run nan cp sc th c gt t0 cc0 true carbon r = out -> coupled_run nan cp sc' th c' gt t0 cc0 true carbon' r' = out' ->
  o_exn out = None -> o_exn out' = None ->
  forall o, In o (output_names (t_names th)) -> exists v v', in_array (o_results out) o v /\ in_array (o_results out') o v' /\
    List.length v = d_years c /\ List.length v' = d_years c /\ forall k, (k <= M)%nat -> nth_error v k = nth_error v' k.
Proof.
  intros N1 N2 N3 N4 E E' X X' o I. destruct (runs _ _ _ _ _ _ E E' X X') as (s & s' & series & series' & fs & fs' & tr & tr' & h0 & l & l' & AR & AR' & OR & OR' & C & C' & L & L' & EQ & _ & _ & _ & _).
  destruct (frames_of nan (cc_state A) (carbon_data nan cp p (c_emis sc)) _ _ _ _ _ AR) as (f1 & f2 & f3 & rest & _ & _ & _ & FS & RS & WFS). destruct (frames_of nan (cc_state A) (carbon_data nan cp (c_p sc') (c_emis sc')) _ _ _ _ _ AR') as (g1 & g2 & g3 & rest' & _ & _ & _ & FS' & RS' & WFS').
  destruct (C o I) as (col & C1 & C2 & C3). destruct (C' o I) as (col' & C1' & C2' & C3').
  assert (NO : forall (fs0 : dict (frame A)) rest0 a b d, fs0 = [("emissions", a); ("concentrations", b); ("forcing", d)] ++ rest0 -> (rest0 = [] \/ exists v, rest0 = [("carbon cycle", v)]) ->
    dget (map (fun kv : string * frame A => (fst kv, Fr (snd kv))) fs0) o = None).
  { intros fs0 rest0 a b d -> Q. assert (o <> "emissions" /\ o <> "concentrations" /\ o <> "forcing" /\ o <> "carbon cycle") as [O1 [O2 [O3 O4]]] by (repeat split; intros ->; tauto).
    apply dget_None_keys. change (~ In o (map fst (map (fun kv : string * frame A => (fst kv, Fr (snd kv))) ([("emissions", a); ("concentrations", b); ("forcing", d)] ++ rest0)))).
    rewrite map_map. cbn [fst]. destruct Q as [->|[v ->]]; cbn; intuition congruence. }
  exists col, col'. unfold in_array. rewrite OR, OR', !dget_dupdate by assumption. rewrite (NO _ _ _ _ _ FS RS), (NO _ _ _ _ _ FS' RS').
  split; [exact C1|]. split; [exact C1'|]. assert (DY : d_years c' = d_years c) by (unfold d_years; rewrite ST', EN'; reflexivity).
  split; [congruence|]. split; [congruence|]. intros k Lk. specialize (EQ k Lk).
  destruct (nth_error tr k) as [[v f]|] eqn:T1; [|apply nth_error_None in T1; lia]. rewrite (C3 k v f T1), (C3' k v f (eq_sym EQ)).
  destruct (IN k Lk) as [_ [I2 [I3 I4]]]. unfold cell. rewrite I2, I3, I4. reflexivity.
Qed.

Lemma get_row (fr : frame A) k v start n : fr_index fr = zrange start n -> dget (fr_cols fr) k = Some v -> forall i, (i < n)%nat ->
  fr_get fr k (start + Z.of_nat i) = key YEAR (nth_error v i).
Proof.
  intros HI HD i L. unfold fr_get, fr_col. rewrite HD, HI. cbn [key rbind]. clear HI HD.
  assert (Q : forall n start (v : list A) i, (i < n)%nat -> yget (combine (zrange start n) v) (start + Z.of_nat i) = nth_error v i).
  { clear. induction n as [|n IH]; intros start v i L; [lia|]. rewrite P_Driver.zrange_S. destruct v as [|x v]; [destruct i; reflexivity|]. cbn [combine yget]. destruct i as [|i].
    - replace (start + Z.of_nat 0)%Z with start by lia. rewrite Z.eqb_refl. reflexivity.
    - destruct (Z.eqb_spec start (start + Z.of_nat (S i))); [lia|]. cbn [nth_error]. rewrite <- (IH (start + 1)%Z v i) by lia. f_equal. lia. }
  rewrite Q by exact L. reflexivity.
Qed.
Lemma erf_index (p0 : hpam A) st erf f : forcing_frame p0 st erf = Ok f -> fr_index erf = years_of p0.
Proof.
  intros F. unfold forcing_frame in F. destruct (make_frame _ _) as [f1|] eqn:E1; cbn [rbind] in F; [|discriminate].
  destruct (set_col f1 _ _) as [f2|] eqn:E2; cbn [rbind] in F; [|discriminate].
  unfold make_frame in E1. destruct (forallb _ _); [|discriminate]. inversion E1; subst f1. unfold set_col in E2. cbn [fr_index] in E2.
  destruct (Nat.eqb _ _); [|discriminate]. inversion E2; subst f2. unfold concat_cols in F. cbn [fr_index with_tot_vanilla] in F.
  unfold zlist_eqb in F. destruct (list_eq_dec Z.eq_dec (years_of p0) (fr_index erf)); [congruence|discriminate].
Qed.

Lemma c85_forcing carbon carbon' r r' out out' : wf gt -> (exists k, In k (dkeys (fr_cols (c_erf sc)))) ->
  (forall k, In k reserved -> ~ In k (dkeys gt) /\ ~ In k (dkeys (fr_cols (c_erf sc)))) ->
  coupled_run nan cp sc th c gt t0 cc0 true carbon r = out -> coupled_run nan cp sc' th c' gt t0 cc0 true carbon' r' = out' ->
  o_exn out = None -> o_exn out' = None ->
  exists f f', dget (o_results out) "forcing" = Some (Fr f) /\ dget (o_results out') "forcing" = Some (Fr f') /\ dkeys (fr_cols f) = dkeys (fr_cols f') /\
    forall k v v', dget (fr_cols f) k = Some v -> dget (fr_cols f') k = Some v' -> forall i, (i <= M)%nat -> nth_error v i = nth_error v' i.
Proof.
  intros W NE RS E E' X X'.
  destruct (runs _ _ _ _ _ _ E E' X X') as (s & s' & series & series' & fs & fs' & tr & tr' & h0 & l & l' & AR & AR' & OR & OR' & _ & _ & _ & _ & _ & H1 & H2 & KF & KC & KG & KG').
  destruct (frames_of nan (cc_state A) (carbon_data nan cp p (c_emis sc)) _ _ _ _ _ AR) as (f & em & cf & rest & F1 & _ & _ & FS & _ & WFS). destruct (frames_of nan (cc_state A) (carbon_data nan cp (c_p sc') (c_emis sc')) _ _ _ _ _ AR') as (f' & em' & cf' & rest' & F1' & _ & _ & FS' & _ & WFS').
  exists f, f'. split; [rewrite OR, dget_dupdate by exact WFS; rewrite FS; reflexivity|]. split; [rewrite OR', dget_dupdate by exact WFS'; rewrite FS'; reflexivity|].
  destruct (trace_past (cc_state A) (co2em2conc cp) sc c _ _ _ _ H1 ST) as [_ [P2 [_ P4]]].
  assert (ST2 : d_start c' = nystart (c_p sc')) by congruence. destruct (trace_past (cc_state A) (co2em2conc cp) sc' c' _ _ _ _ H2 ST2) as [_ [P2' [_ P4']]].
  rewrite PP in F1'.
  destruct (@exists_last _ (dkeys (fr_cols (c_erf sc)))) as [cs [last KE]]. { destruct NE as [k I]. intros Q. rewrite Q in I. destruct I. }
  assert (KE' : dkeys (fr_cols (c_erf sc')) = cs ++ [last]) by (rewrite <- (proj1 AF); exact KE).
  assert (RS' : forall k, In k reserved -> ~ In k (dkeys gt) /\ ~ In k (dkeys (fr_cols (c_erf sc')))) by (intros k I; rewrite <- (proj1 AF); apply RS; exact I).
  assert (KF' : dkeys (s_forc (snd (l_h s'))) = dkeys (s_forc (reset_arrays p gt (c_erf sc')))) by (rewrite P2', <- P2, KF, same_reset; reflexivity).
  destruct (c74_run p gt (c_erf sc) (snd (l_h s)) f cs last W WF RS KF KE F1) as [_ [C2 [_ [C4 [C5 C6]]]]].
  destruct (c74_run p gt (c_erf sc') (snd (l_h s')) f' cs last W WF' RS' KF' KE' F1') as [_ [D2 [_ [D4 [D5 D6]]]]].
  assert (EK : dkeys (fr_cols f) = dkeys (fr_cols f')).
  { rewrite C2, D2. f_equal. f_equal. apply filter_ext. intros k. rewrite (keys_dmem _ _ k (proj1 AF)). reflexivity. }
  split; [exact EK|]. intros k v v' V V' i Li.
  assert (I : In k (dkeys (fr_cols f))) by (apply dget_In_keys, dmem_true; eauto).
  assert (RC := reset_columns p gt (c_erf sc) (proj1 (RS "Total_forcing" ltac:(cbn; auto)))). rewrite <- KF in RC. rewrite C2, <- RC in I. unfold forcing_columns in I.
  apply in_map_iff in I. destruct I as [k0 [<- I]].
  assert (Q : k0 = "Year" \/ In k0 (dkeys (s_forc (snd (l_h s)))) \/ In k0 (dkeys (fr_cols (c_erf sc)))).
  { destruct I as [->|I]; [right; right; rewrite KE; apply in_or_app; right; left; reflexivity|]. apply in_app_iff in I. destruct I as [I|[<-|I]]; [tauto|tauto|]. right; right. rewrite KE. apply in_or_app. left; exact I. }
  destruct Q as [->|[Q|Q]].
  - change (forcing_label "Year") with "Year" in *. congruence.
  - rewrite C5 in V by exact Q. assert (Q' : In k0 (dkeys (s_forc (snd (l_h s'))))) by (rewrite P2', <- P2; exact Q). rewrite D5 in V' by exact Q'.
    rewrite P2 in Q. apply dget_In_keys, dmem_true in Q. destruct Q as [w Q]. rewrite (P4 k0 w v i Q V) by lia. rewrite (P4' k0 w v' i Q V') by lia. reflexivity.
  - rewrite C6 in V by exact Q. assert (Q' : In k0 (dkeys (fr_cols (c_erf sc')))) by (rewrite <- (proj1 AF); exact Q). rewrite D6 in V' by exact Q'.
    assert (LY : (i < Z.to_nat (nyend p - nystart p + 1))%nat) by (unfold d_years in LM; rewrite ST, EN in LM; lia).
    assert (G1 := get_row (c_erf sc) k0 v _ _ (erf_index _ _ _ _ F1) V i LY). assert (G2 := get_row (c_erf sc') k0 v' _ _ (erf_index _ _ _ _ F1') V' i LY).
    rewrite (proj2 AF k0 (nystart p + Z.of_nat i)%Z ltac:(unfold until; lia)) in G1. rewrite G1 in G2. unfold key in G2.
    destruct (nth_error v i), (nth_error v' i); congruence.
Qed.

Lemma c85_concentrations carbon carbon' r r' out out' : wf gt -> wf (fr_cols (c_pc sc)) -> wf (fr_cols (c_pc sc')) -> agree_on (until y) (c_pc sc) (c_pc sc') ->
  (forall k, In k (dkeys (fr_cols (c_pc sc))) -> dmem (fr_cols (c_erf sc)) k = true) -> (exists k, In k (dkeys (fr_cols (c_pc sc)))) ->
  ~ In "Year" (dkeys gt ++ dkeys (fr_cols (c_pc sc))) ->
  coupled_run nan cp sc th c gt t0 cc0 true carbon r = out -> coupled_run nan cp sc' th c' gt t0 cc0 true carbon' r' = out' ->
  o_exn out = None -> o_exn out' = None ->
  exists f f', dget (o_results out) "concentrations" = Some (Fr f) /\ dget (o_results out') "concentrations" = Some (Fr f') /\ dkeys (fr_cols f) = dkeys (fr_cols f') /\
    forall k v v', dget (fr_cols f) k = Some v -> dget (fr_cols f') k = Some v' -> forall i, (i <= M)%nat -> nth_error v i = nth_error v' i.
Proof.
  intros W WP WP' AG PE NE NY E E' X X'.
  destruct (runs _ _ _ _ _ _ E E' X X') as (s & s' & series & series' & fs & fs' & tr & tr' & h0 & l & l' & AR & AR' & OR & OR' & _ & _ & _ & _ & _ & H1 & H2 & KF & KC & KG & KG').
  destruct (frames_of nan (cc_state A) (carbon_data nan cp p (c_emis sc)) _ _ _ _ _ AR) as (fo & em & f & rest & _ & _ & F1 & FS & _ & WFS). destruct (frames_of nan (cc_state A) (carbon_data nan cp (c_p sc') (c_emis sc')) _ _ _ _ _ AR') as (fo' & em' & f' & rest' & _ & _ & F1' & FS' & _ & WFS').
  exists f, f'. split; [rewrite OR, dget_dupdate by exact WFS; rewrite FS; reflexivity|]. split; [rewrite OR', dget_dupdate by exact WFS'; rewrite FS'; reflexivity|].
  destruct (trace_past (cc_state A) (co2em2conc cp) sc c _ _ _ _ H1 ST) as [P1 [_ [P3 _]]].
  assert (ST2 : d_start c' = nystart (c_p sc')) by congruence. destruct (trace_past (cc_state A) (co2em2conc cp) sc' c' _ _ _ _ H2 ST2) as [P1' [_ [P3' _]]].
  rewrite PP in F1', P3'.
  assert (CK : forall k, In k (dkeys (s_conc (snd (l_h s)))) -> In k (dkeys gt) /\ dmem (fr_cols (c_erf sc)) k = false) by (intros k I; rewrite KC in I; apply reset_conc_keys; exact I).
  assert (ND : NoDup ("Year" :: dkeys (s_conc (snd (l_h s))) ++ dkeys (fr_cols (c_pc sc)))).
  { constructor; [intros I; apply NY; apply in_app_iff in I; apply in_or_app; destruct I as [I|I]; [left; apply CK; exact I|right; exact I]|].
    assert (WC : NoDup (dkeys (s_conc (snd (l_h s))))) by (rewrite KC; apply reset_conc_wf; exact W). clear -WC WP CK PE.
    assert (DJ : forall k, In k (dkeys (s_conc (snd (l_h s)))) -> ~ In k (dkeys (fr_cols (c_pc sc)))) by (intros k I J; apply PE in J; apply CK in I; destruct I; congruence).
    clear CK PE. revert WC DJ. generalize (dkeys (s_conc (snd (l_h s)))) as ks. induction ks as [|k ks IH]; intros WC DJ; [exact WP|]. inversion WC; subst. cbn [app]. constructor.
    - intros I. apply in_app_iff in I. destruct I as [I|I]; [auto|]. apply (DJ k); [left; reflexivity|exact I].
    - apply IH; [assumption|]. intros k0 I0. apply DJ. right; exact I0. }
  assert (SK : dkeys (s_conc (snd (l_h s'))) = dkeys (s_conc (snd (l_h s)))) by congruence.
  assert (ND' : NoDup ("Year" :: dkeys (s_conc (snd (l_h s'))) ++ dkeys (fr_cols (c_pc sc')))) by (rewrite SK, <- (proj1 AG); exact ND).
  assert (NG : ~ In "Year" (dkeys gt)) by (intros I; apply NY, in_or_app; left; exact I).
  destruct (concentration_spec nan p _ _ f ND ltac:(rewrite KG; exact NG) NE F1) as [_ [I1 [C1 [C2 [C3 C4]]]]].
  destruct (concentration_spec nan p _ _ f' ND' ltac:(rewrite KG'; exact NG) ltac:(rewrite <- (proj1 AG); exact NE) F1') as [_ [I2 [D1 [D2 [D3 D4]]]]].
  split; [rewrite C1, D1, KG, KG', SK, <- (proj1 AG); reflexivity|]. intros k v v' V V' i Li.
  assert (I : In k (dkeys (fr_cols f))) by (apply dget_In_keys, dmem_true; eauto). rewrite C1 in I. unfold concentration_columns in I.
  destruct I as [<-|I]; [congruence|]. apply filter_In in I. destruct I as [IG I]. apply smem_In, in_app_iff in I.
  assert (LY : (i < Z.to_nat (nyend p - nystart p + 1))%nat) by (unfold d_years in LM; rewrite ST, EN in LM; lia).
  destruct I as [I|I].
  - assert (I' := I). rewrite <- SK in I'. apply dget_In_keys, dmem_true in I, I'. destruct I as [d E0], I' as [d' E0'].
    rewrite (C3 k d IG E0) in V. rewrite KG, <- KG' in IG. rewrite (D3 k d' IG E0') in V'. inversion V; subst v. inversion V'; subst v'. clear V V'.
    unfold conc_series. rewrite !nth_error_map. unfold years_of. 
    destruct (nth_error (zrange (nystart p) _) i) as [z|] eqn:EZ; [|reflexivity]. cbn [option_map]. f_equal.
    assert (z = (nystart p + Z.of_nat i)%Z). { rewrite P_Gas2.zrange_nth in EZ by exact LY. congruence. } subst z.
    assert (G1 := P3 k (nystart p + Z.of_nat i)%Z ltac:(lia)). assert (G2 := P3' k (nystart p + Z.of_nat i)%Z ltac:(lia)). rewrite <- G2 in G1. unfold conc_get in G1. rewrite E0, E0' in G1. cbn [key rbind] in G1.
    unfold key in G1. destruct (yget d _), (yget d' _); congruence.
  - assert (I' := I). rewrite (proj1 AG) in I'. rewrite (C4 k IG I) in V. rewrite KG, <- KG' in IG. rewrite (D4 k IG I') in V'.
    assert (G1 := get_row (c_pc sc) k v _ _ I1 V i LY). assert (G2 := get_row (c_pc sc') k v' _ _ I2 V' i LY).
    rewrite (proj2 AG k (nystart p + Z.of_nat i)%Z ltac:(unfold until; lia)) in G1. rewrite G1 in G2. unfold key in G2. destruct (nth_error v i), (nth_error v' i); congruence.
Qed.
End Runs.
