(** * P_Warm2: forcing of two runs that differ in CO2 only (C109) *)
From Coq Require Import Reals Lra Lia.
From Verif Require Import PyBase PyBaseFacts Num M_Gas M_TwoLayer M_Forcing M_Carbon M_Driver M_Results M_BoxRun Spec_Coupled Spec_Driver Spec_Results Spec_TwoLayer Spec_TwoLayerOrder Spec_Warm
  P_Climate P_Warm P_Driver P_Driver3 P_Coupled P_Coupled2 P_Coupled5 P_AnyCarbon P_Forc5.
From Verif Require P_Forc2 P_Input2 P_Gas2.
Open Scope R_scope.

(** ** Total forcing rises with CO2 *)
Lemma ln_step a b : 0 < a -> a <= b -> (b - a) / b <= ln b - ln a.
Proof.
  intros A L. assert (B : 0 < b) by lra.
  assert (H : ln (a / b) <= a / b - 1).
  { assert (P : 0 < a / b) by (apply Rdiv_lt_0_compat; lra). generalize (exp_ineq1_le (ln (a / b))). rewrite exp_ln by exact P. lra. }
  unfold Rdiv in H. rewrite ln_mult, ln_Rinv in H; [|exact B|exact A|apply Rinv_0_lt_compat; exact B].
  replace ((b - a) / b) with (1 - a * / b) by (field; lra). lra.
Qed.
Lemma ln_div a b : 0 < a -> 0 < b -> ln (a / b) = ln a - ln b.
Proof. intros A B. unfold Rdiv. rewrite ln_mult, ln_Rinv; [lra|exact B|exact A|apply Rinv_0_lt_compat; exact B]. Qed.
Lemma co2_half c0 c c' n0 n : 0 < c0 -> 0 < c -> c <= c' -> Rabs (c - c0) <= 1500 -> Rabs (c' - c0) <= 1500 -> 0 <= pre_co2 0 n0 n -> c' <= c0 \/ c0 <= c ->
  pre_co2 0 n0 n * (ln c' - ln c) <= rf_co2 c0 c' n0 n - rf_co2 c0 c n0 n.
Proof.
  intros P0 P L X X' Q C. rewrite !rf_co2_eq, !ln_div by lra.
  assert (M : ln c <= ln c') by (destruct L as [L| ->]; [left; apply ln_increasing; lra|lra]).
  assert (A1 := pre_mono 0 (Rabs (c - c0)) n0 n ltac:(lra) (Rabs_pos _) X). assert (A2 := pre_mono 0 (Rabs (c' - c0)) n0 n ltac:(lra) (Rabs_pos _) X').
  destruct C as [C|C].
  - assert (A3 : pre_co2 (Rabs (c' - c0)) n0 n <= pre_co2 (Rabs (c - c0)) n0 n) by (apply pre_mono; [apply Rabs_pos|rewrite !Rabs_left1 by lra; lra|exact X]).
    assert (N : ln c' <= ln c0) by (destruct C as [C| ->]; [left; apply ln_increasing; lra|lra]). nra.
  - assert (A3 : pre_co2 (Rabs (c - c0)) n0 n <= pre_co2 (Rabs (c' - c0)) n0 n) by (apply pre_mono; [apply Rabs_pos|rewrite !Rabs_right by lra; lra|exact X']).
    assert (N : ln c0 <= ln c) by (destruct C as [C| ->]; [left; apply ln_increasing; lra|lra]). nra.
Qed.
Lemma co2_slope c0 c c' n0 n : 0 < c0 -> 0 < c -> c <= c' -> Rabs (c - c0) <= 1500 -> Rabs (c' - c0) <= 1500 -> 0 <= pre_co2 0 n0 n ->
  pre_co2 0 n0 n * (ln c' - ln c) <= rf_co2 c0 c' n0 n - rf_co2 c0 c n0 n.
Proof.
  intros P0 P L X X' Q. destruct (Rle_lt_dec c' c0) as [C|C]; [apply co2_half; auto|]. destruct (Rle_lt_dec c0 c) as [C'|C']; [apply co2_half; auto|].
  assert (Z : Rabs (c0 - c0) <= 1500) by (replace (c0 - c0) with 0 by ring; rewrite Rabs_R0; lra).
  assert (A1 := co2_half c0 c c0 n0 n P0 P ltac:(lra) X Z Q ltac:(left; lra)). assert (A2 := co2_half c0 c0 c' n0 n P0 P0 ltac:(lra) Z X' Q ltac:(right; lra)). lra.
Qed.
Lemma n2o_change c0 c c' n0 n m0 m : rf_n2o c0 c' n0 n m0 m - rf_n2o c0 c n0 n m0 m = - (4 / 10 ^ 6) * (c' - c) * (sqrt n - sqrt n0).
Proof. unfold rf_n2o. rnum. rdec. cbn [pow]. field. Qed.
Lemma rise fc fn c0 c c' n0 n m0 m : 0 <= fn <= 10 * fc -> 0 < c0 <= 1500 -> 0 < c -> c <= c' -> Rabs (c - c0) <= 1500 -> Rabs (c' - c0) <= 1500 ->
  0 <= n0 <= 1000 -> 0 <= n <= 1000 ->
  4 / 10 ^ 4 * fc * (c' - c) <= fc * (rf_co2 c0 c' n0 n - rf_co2 c0 c n0 n) + fn * (rf_n2o c0 c' n0 n m0 m - rf_n2o c0 c n0 n m0 m).
Proof.
  intros F [P0 B0] P L X X' N0 N1. rewrite n2o_change.
  assert (PP : 515 / 100 <= pre_co2 0 n0 n) by (unfold pre_co2; lra).
  assert (S := co2_slope c0 c c' n0 n P0 P L X X' ltac:(lra)). assert (LN := ln_step c c' P L).
  assert (C3 : c' <= 3000) by (generalize (Rle_abs (c' - c0)); lra).
  assert (LD : (c' - c) / 3000 <= ln c' - ln c).
  { apply Rle_trans with ((c' - c) / c'); [|exact LN]. unfold Rdiv. apply Rmult_le_compat_l; [lra|]. apply Rinv_le_contravar; lra. }
  assert (SL : 515 / 100 * ((c' - c) / 3000) <= rf_co2 c0 c' n0 n - rf_co2 c0 c n0 n).
  { apply Rle_trans with (pre_co2 0 n0 n * (ln c' - ln c)); [|exact S]. apply Rmult_le_compat; lra. }
  assert (SQ : sqrt n - sqrt n0 <= 32).
  { assert (sqrt n <= 32) by (replace 32 with (sqrt (32 * 32)) by (apply sqrt_square; lra); apply sqrt_le_1_alt; lra). generalize (sqrt_pos n0). lra. }
  assert (FC : 0 <= fc) by lra. assert (D : 0 <= c' - c) by lra. set (d := c' - c) in *. set (q := sqrt n - sqrt n0) in *. cbn [pow] in *.
  assert (S1 : fc * (515 / 100 * (d / 3000)) <= fc * (rf_co2 c0 c' n0 n - rf_co2 c0 c n0 n)) by (apply Rmult_le_compat_l; assumption).
  assert (FD : 0 <= fn * d) by (apply Rmult_le_pos; lra). assert (FD' : fn * d <= 10 * fc * d) by (apply Rmult_le_compat_r; lra).
  assert (S2 : fn * d * q <= fn * d * 32) by (apply Rmult_le_compat_l; assumption). 
  assert (E : fn * (- (4 / (10 * (10 * (10 * (10 * (10 * (10 * 1))))))) * d * q) = - (4 / 1000000) * (fn * d * q)) by field. rewrite E. lra.
Qed.

(** ** What the years of a run leave alone *)
Section Keep.
Context {A : Type} {N : Num A}.
Definition same_sarf (st st' : hst A) : Prop := forall k, option_map g_sarf (dget (s_gas st') k) = option_map g_sarf (dget (s_gas st) k).
Lemma ss_trans a b c : same_sarf a b -> same_sarf b c -> same_sarf a c.
Proof. intros X Y k. rewrite Y. apply X. Qed.
Lemma ss_gas a b : s_gas b = s_gas a -> same_sarf a b.
Proof. intros E k. rewrite E. reflexivity. Qed.
Lemma conc_set_gas st t y v (st' : hst A) : conc_set st t y v = Ok st' -> s_gas st' = s_gas st.
Proof. unfold conc_set. destruct (dget (s_conc st) t); cbn [key rbind]; [|discriminate]. intros H; inversion H. reflexivity. Qed.
Lemma fill_gas conc y avoid (st st' : hst A) : fill_one_row conc y avoid st = Ok st' -> s_gas st' = s_gas st.
Proof.
  unfold fill_one_row. generalize (dkeys (s_conc st)). intros l. revert st. induction l as [|k l IH]; intros st H; cbn [fold_left] in H; [inversion H; reflexivity|].
  cbn [rbind] in H. destruct (smem k avoid); [apply IH; exact H|].
  assert (ERR : forall e, fold_left (fun acc t => rbind acc (fun st0 => if smem t avoid then Ok st0 else if dmem (fr_cols conc) t then rbind (fr_get conc t y) (fun v => conc_set st0 t y v) else conc_set st0 t y #0%num)) l (Err e) <> Ok st').
  { clear. induction l as [|x l IH]; intros e; cbn [fold_left rbind]; [discriminate|apply IH]. }
  destruct (dmem (fr_cols conc) k).
  - destruct (fr_get conc k y) as [v|]; cbn [rbind] in H; [|exfalso; eapply ERR; exact H]. destruct (conc_set st k y v) as [s1|] eqn:C; [|exfalso; eapply ERR; exact H].
    rewrite (IH s1 H). eapply conc_set_gas; exact C.
  - destruct (conc_set st k y _) as [s1|] eqn:C; [|exfalso; eapply ERR; exact H]. rewrite (IH s1 H). eapply conc_set_gas; exact C.
Qed.
Lemma emi2conc_sarf (S Fb : Type) co2 (p : hpam A) conc emis n4 n2 y fb cc st cc' st' : emi2conc S Fb co2 p conc emis n4 n2 y fb cc st = Ok (cc', st') -> same_sarf st st'.
Proof.
  assert (CO : forall a fb cc b, co2_year S Fb co2 emis cc y fb a = Ok b -> s_gas (snd b) = s_gas a).
  { intros a fb0 cc0 b H. unfold co2_year in H. destruct (co2_emission emis a y); cbn [rbind] in H; [|discriminate]. cbv zeta in H.
    destruct (conc_set a "CO2" y _) as [s1|] eqn:C; cbn [rbind] in H; [|discriminate]. inversion H; subst b. cbn. eapply conc_set_gas; exact C. }
  unfold emi2conc. destruct (conc_run p).
  - destruct (fill_one_row _ _ _ _) as [s1|] eqn:F; cbn [rbind]; [|discriminate]. intros H; inversion H; subst. apply ss_gas. eapply fill_gas; exact F.
  - destruct (Z.ltb y (emstart p)).
    + destruct (co2_year _ _ _ _ _ _ _ _) as [[c1 s1]|] eqn:C; cbn [rbind]; [|discriminate]. apply CO in C. cbn [snd fst] in *.
      destruct (fill_one_row _ _ _ _) as [s2|] eqn:F; cbn [rbind]; [|discriminate]. intros H; inversion H; subst. apply ss_gas. rewrite (fill_gas _ _ _ _ _ F). exact C.
    + intros H. apply (ss_trans _ (add_row_of_zeros y st)); [apply ss_gas; reflexivity|]. revert H. generalize (add_row_of_zeros y st). generalize (dkeys (s_conc st)). intros l. revert cc.
      induction l as [|t l IH]; intros cc s0 H; cbn [fold_left] in H; [inversion H; apply ss_gas; reflexivity|].
      destruct (emi2conc_tracer S Fb co2 p conc emis n4 n2 y fb (Ok (cc, s0)) t) as [[cc1 s1]|e] eqn:E.
      2:{ exfalso. clear -H. revert e H. induction l as [|x l IH]; intros e H; cbn [fold_left] in H; [discriminate|]. exact (IH e H). }
      apply (ss_trans _ s1); [|exact (IH cc1 s1 H)]. clear IH H.
      unfold emi2conc_tracer in E. cbn [rbind] in E. destruct (dget (s_gas s0) t) as [g|] eqn:DG; cbn [key rbind] in E; [|discriminate].
      destruct (String.eqb (g_unit g) "-"); [inversion E; apply ss_gas; reflexivity|]. destruct (String.eqb t "CO2"); [apply CO in E; apply ss_gas; exact E|].
      destruct (if Z.gtb y (nystart p) then _ else _) as [pv|] in E; cbn [rbind] in E; [|discriminate]. cbv zeta in E.
      destruct (if String.eqb t "CH4" then _ else _) as [[g' q']|] eqn:GQ in E; cbn [rbind] in E; [|discriminate].
      assert (SG : g_sarf g' = g_sarf g).
      { destruct (String.eqb t "CH4").
        - destruct (fr_get n4 "CH4" y); cbn [rbind] in GQ; [|discriminate]. destruct (methane_lifetime _ _ _ _ _ _); cbn [rbind] in GQ; [|discriminate]. inversion GQ. reflexivity.
        - destruct (String.eqb t "N2O"); [|inversion GQ; reflexivity]. destruct (fr_get n2 "N2O" y); cbn [rbind] in GQ; [|discriminate]. inversion GQ. reflexivity. }
      destruct (fr_get emis t y) as [em|] in E; cbn [rbind] in E; [|discriminate].
      destruct (conc_set _ t y _) as [s2|] eqn:C in E; cbn [rbind] in E; [|discriminate]. inversion E; subst s2 cc1. apply conc_set_gas in C. intros k. rewrite C. cbn [s_gas set_gas].
      rewrite dget_dset. destruct (String.eqb_spec t k) as [->|]; [|reflexivity]. rewrite DG. cbn [option_map]. congruence.
Qed.
End Keep.

Section Past.
Context {A : Type} {N : Num A}.
Variables (CC : Type) (year : CC -> nat -> A -> A -> CC * A) (sc : scenario A) (c : inst A).
Notation p := (c_p sc).
Notation HT := (htrace c (any_emi2conc CC year sc) (any_conc2forc CC sc)).
Lemma any_past n h l h' : HT n h l h' -> d_start c = nystart p ->
  dkeys (s_conc (snd h')) = dkeys (s_conc (snd h)) /\ dkeys (s_forc (snd h')) = dkeys (s_forc (snd h)) /\ dkeys (s_gas (snd h')) = dkeys (s_gas (snd h)) /\
  same_sarf (snd h) (snd h') /\
  (forall k z, (z < nystart p + Z.of_nat n)%Z -> conc_get (snd h') k z = conc_get (snd h) k z).
Proof.
  intros X DS. induction X as [n h|n h fb luc sun q h1 h2 l h3 E1 _ _ E2 X IH].
  - split; [reflexivity|]. split; [reflexivity|]. split; [reflexivity|]. split; [intros k; reflexivity|]. reflexivity.
  - rewrite DS in E1, E2. destruct h as [cc st], h1 as [cc1 st1], h2 as [cc2 st2]. unfold any_emi2conc in E1. cbn [fst snd] in *. assert (E1' := E1).
    apply emi2conc_sarf in E1'. apply emi2conc_reach in E1. unfold any_conc2forc in E2. cbn [fst snd] in E2.
    destruct (conc2forc _ _ _ _ _ _ _ _ st1) as [[q' st2']|] eqn:E3; cbn [rbind fst snd] in E2; [|discriminate]. inversion E2; subst cc2 st2' q'. clear E2.
    destruct (sg_conc2forc _ _ _ _ _ _ _ _ _ _ _ E3) as [G2 _]. apply conc2forc_reach in E3. assert (R := r_trans _ _ _ _ _ E1 E3).
    assert (RG := reach_gas _ _ _ _ R). apply reach_past in R. destruct R as [K1 [F1 [C1 _]]]. destruct IH as [K2 [F2 [G [S2 C2]]]].
    split; [congruence|]. split; [congruence|]. split; [congruence|]. split.
    + apply (ss_trans _ st1); [exact E1'|]. apply (ss_trans _ st2); [apply ss_gas; exact G2|exact S2].
    + intros k z L. rewrite C2 by lia. apply C1. lia.
Qed.
End Past.

(** ** Two runs *)
Lemma lift_by_co2 (p : hpam R) y (a a' b b' : hst R) D : same_sarf a b -> (forall k z, In k ["CO2"; "N2O"; "CH4"] -> In z [nystart p; y] -> conc_get b k z = conc_get a k z) ->
  (forall z, In z [nystart p; y] -> conc_get b' "CO2" z = conc_get a' "CO2" z) -> by_co2 p y a a' D -> by_co2 p y b b' D.
Proof.
  intros S C C' (c0 & c & c0' & c' & n0 & n & m0 & m & gc & gn & E1 & E2 & E3 & E4 & E5 & E6 & E7 & E8 & G1 & G2 & ->).
  assert (SG : forall k g, dget (s_gas a) k = Some g -> exists g2, dget (s_gas b) k = Some g2 /\ g_sarf g2 = g_sarf g).
  { intros k g E. specialize (S k). rewrite E in S. cbn in S. destruct (dget (s_gas b) k) as [g2|]; [|discriminate]. cbn in S. injection S as S. eauto. }
  destruct (SG _ _ G1) as (gc2 & H1 & <-). destruct (SG _ _ G2) as (gn2 & H2 & <-).
  exists c0, c, c0', c', n0, n, m0, m, gc2, gn2. rewrite !C, !C' by (cbn; tauto). repeat (split; [assumption|]). reflexivity.
Qed.
Definition entry := (option (dict R) * R * R * (R * R * R * R))%type.
Definition balanced (x : entry) : Prop := (snd (fst (fst (snd x))) + snd (fst (snd x))) / 2 = total_of x + snd (fst x).
(** both halves of the globe change alike *)
Definition alike_halves (x x' : entry) : Prop :=
  snd (fst (fst (snd x'))) - snd (fst (fst (snd x))) = total_of x' - total_of x /\ snd (fst (snd x')) - snd (fst (snd x)) = total_of x' - total_of x.
Section Two.
Variables (CC CC' : Type) (year : CC -> nat -> R -> R -> CC * R) (year' : CC' -> nat -> R -> R -> CC' * R) (sc sc' : scenario R) (c : inst R).
Hypothesis BF : but_for_co2 sc sc'.
Notation p := (c_p sc).
Hypothesis DS : d_start c = nystart p.
Notation HT := (htrace c (any_emi2conc CC year sc) (any_conc2forc CC sc)).
Notation HT' := (htrace c (any_emi2conc CC' year' sc') (any_conc2forc CC' sc')).

Lemma two_traces l : forall l' n h h1 h' h1', HT n h l h1 -> HT' n h' l' h1' -> List.length l = List.length l' -> near (snd h) (snd h') ->
  wf (s_forc (snd h)) -> wf (s_forc (snd h')) ->
  near (snd h1) (snd h1') /\ forall k x x', nth_error l k = Some x -> nth_error l' k = Some x' ->
    by_co2 p (nystart p + Z.of_nat (n + k)) (snd h1) (snd h1') (total_of x' - total_of x) /\ balanced x /\ balanced x' /\ alike_halves x x' /\
    nth_error (d_sun c) (n + k) = Some (snd (fst x)) /\ nth_error (d_sun c) (n + k) = Some (snd (fst x')).
Proof.
  destruct BF as [E1 E2 E3 E4 E5 E6 E7 E8 E9].
  induction l as [|x l IH]; intros l' n h h1 h' h1' H H' LE NR W W'; destruct l' as [|x' l']; try discriminate LE.
  - inversion H; subst. inversion H'; subst. split; [exact NR|]. intros [|k] x x' X; discriminate X.
  - inversion H as [|? ? fb luc sun q g1 g2 ? ? P1 P2 P3 P4 P5]; subst. inversion H' as [|? ? fb' luc' sun' q' g1' g2' ? ? P1' P2' P3' P4' P5']; subst.
    assert (luc' = luc) by congruence. assert (sun' = sun) by congruence. subst luc' sun'. rewrite DS in *.
    unfold any_emi2conc in P1, P1'. rewrite E1, E4, E5 in P1'.
    match type of P1 with emi2conc _ _ ?co _ _ _ _ _ ?y ?fb _ _ = _ => match type of P1' with emi2conc _ _ ?co' _ _ _ _ _ _ ?fb' _ _ = _ =>
      assert (R1 := n_emi2conc p (c_conc sc) (c_conc sc') (c_emis sc) (c_emis sc') (c_nat_ch4 sc) (c_nat_n2o sc) E2 E3 CC CC' _ _ co co' y fb fb' (fst h) (fst h') (snd h) (snd h') NR) end end.
    rewrite P1, P1' in R1. cbn in R1. unfold np in R1.
    destruct h as [cc st], h' as [cc' st'], g1 as [cc1 st1], g1' as [cc1' st1']. cbn [fst snd] in *.
    assert (RE := emi2conc_keeps _ _ _ _ _ _ _ _ _ _ _ _ _ _ P1). destruct RE as [RE _].
    assert (RE' := emi2conc_keeps _ _ _ _ _ _ _ _ _ _ _ _ _ _ P1'). destruct RE' as [RE' _].
    assert (WF1 : wf (s_forc st1)) by (rewrite RE; exact W). assert (WF1' : wf (s_forc st1')) by (rewrite RE'; exact W').
    unfold any_conc2forc in P4, P4'. rewrite E1, E6, E8 in P4'. cbn [fst snd] in P4, P4'.
    assert (R2 := n_conc2forc p (c_conc sc) (c_conc sc') (c_emis sc) (c_emis sc') (c_erf sc) (c_pert sc) E2 E3 (nystart p + Z.of_nat n) luc sun st1 st1' R1 E9).
    destruct (conc2forc p _ _ _ _ _ luc sun st1) as [[o st2]|] eqn:F; [|discriminate P4]. destruct (conc2forc p _ _ _ _ _ luc sun st1') as [[o' st2']|] eqn:F'; [|discriminate P4'].
    cbn [rbind fst snd] in P4, P4'. injection P4 as <- <-. injection P4' as <- <-. cbn [both fst snd] in R2. destruct R2 as [R2 [BY HV]].
    destruct (sg_conc2forc _ _ _ _ _ _ _ _ _ _ _ F) as [G2 [K2 C2]]. destruct (sg_conc2forc _ _ _ _ _ _ _ _ _ _ _ F') as [G2' [K2' C2']].
    assert (FK := reach_past _ _ _ _ (conc2forc_reach _ _ _ _ _ _ _ _ _ _ _ F)). destruct FK as [_ [FK _]].
    assert (FK' := reach_past _ _ _ _ (conc2forc_reach _ _ _ _ _ _ _ _ _ _ _ F')). destruct FK' as [_ [FK' _]].
    assert (W2 : wf (s_forc st2)) by (unfold wf in *; rewrite FK; exact WF1). assert (W2' : wf (s_forc st2')) by (unfold wf in *; rewrite FK'; exact WF1').
    destruct (IH l' (S n) _ _ _ _ P5 P5' ltac:(cbn in LE; lia) R2 W2 W2') as [I1 I2]. split; [exact I1|].
    intros [|k] y y' Y Y'; cbn [nth_error] in Y, Y'.
    + injection Y as <-. injection Y' as <-. rewrite Nat.add_0_r. split; [|split; [|split; [|split; [exact HV|split; assumption]]]].
      * assert (T := any_past CC year sc c _ _ _ _ P5 DS). assert (T' := any_past CC' year' sc' c _ _ _ _ P5' ltac:(rewrite E1; exact DS)). rewrite E1 in T'. cbn [snd] in T, T'.
        destruct T as (_ & _ & _ & SS & CG). destruct T' as (_ & _ & _ & _ & CG').
        eapply lift_by_co2; [| | |exact BY].
        -- apply (ss_trans _ st2); [apply ss_gas; exact G2|exact SS].
        -- intros k z K Z. rewrite CG, C2; [reflexivity|intros ->; destruct K as [K|[K|[K|[]]]]; discriminate K|destruct Z as [<-|[<-|[]]]; lia].
        -- intros z Z. rewrite CG', C2'; [reflexivity|discriminate|destruct Z as [<-|[<-|[]]]; lia].
      * destruct o as [[[tot nh] sh] w]. exact (P_Forc2.c45_mean _ _ _ _ _ _ _ _ _ _ _ _ _ _ F WF1).
      * destruct o' as [[[tot nh] sh] w]. exact (P_Forc2.c45_mean _ _ _ _ _ _ _ _ _ _ _ _ _ _ F' WF1').
    + rewrite <- plus_n_Sm. apply (I2 k y y' Y Y').
Qed.
End Two.
