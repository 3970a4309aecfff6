(** * P_Span3: C91 from the inputs: what is computed in advance for runs of different lengths *)
From Coq Require Import Lia.
From Verif Require Import PyBase PyBaseFacts Num M_Gas M_TwoLayer M_Forcing M_Carbon M_CarbonBack M_CarbonBox M_Driver M_Results M_BoxRun Spec_Gas Spec_Driver Spec_Reader Spec_Results Spec_Coupled Spec_Span.
From Verif Require P_Gas2 P_Gas4 P_Forc4 P_Forc7 P_Span2.
From Verif Require Import P_Coupled8 M_RFuns.
From Verif Require Spec_Forc.
Close Scope R_scope.
Local Open Scope Z_scope.

Section Pre.
Context {A : Type} {N : Num A}.

Lemma rows_agree_span (f f' : frame A) s n n' M : yearly f s n -> yearly f' s n' -> dkeys (fr_cols f) = dkeys (fr_cols f') -> (M < n)%nat -> (M < n')%nat ->
  (forall k v v', dget (fr_cols f) k = Some v -> dget (fr_cols f') k = Some v' -> rows_agree M v v') ->
  agree_on (until (s + Z.of_nat M)) f f'.
Proof.
  intros Y Y' K L L' R. split; [exact K|]. intros k z Lz. unfold until in Lz.
  destruct (dget (fr_cols f) k) as [v|] eqn:D; destruct (dget (fr_cols f') k) as [v'|] eqn:D'.
  - rewrite (fr_get_at _ _ _ _ _ _ Y D), (fr_get_at _ _ _ _ _ _ Y' D'). destruct (Z.leb_spec s z); [|reflexivity].
    destruct (Z.ltb_spec z (s + Z.of_nat n)); [|lia]. destruct (Z.ltb_spec z (s + Z.of_nat n')); [|lia]. rewrite (R _ _ _ D D') by lia. reflexivity.
  - exfalso. apply dget_None_keys in D'. apply D'. rewrite <- K. apply dget_In_keys, dmem_true. eauto.
  - exfalso. apply dget_None_keys in D. apply D. rewrite K. apply dget_In_keys, dmem_true. eauto.
  - unfold fr_get, fr_col. rewrite D, D'. reflexivity.
Qed.
Lemma agree_rows_span (f f' : frame A) s n n' M k v v' : yearly f s n -> yearly f' s n' -> (M < n)%nat -> (M < n')%nat -> agree_on (until (s + Z.of_nat M)) f f' ->
  dget (fr_cols f) k = Some v -> dget (fr_cols f') k = Some v' -> rows_agree M v v'.
Proof.
  intros Y Y' L L' [_ G] D D' i Li. specialize (G k (s + Z.of_nat i)). unfold until in G. specialize (G ltac:(lia)).
  rewrite (fr_get_at _ _ _ _ _ _ Y D), (fr_get_at _ _ _ _ _ _ Y' D') in G. destruct (Z.leb_spec s (s + Z.of_nat i)); [|lia].
  destruct (Z.ltb_spec (s + Z.of_nat i) (s + Z.of_nat n)); [|lia]. destruct (Z.ltb_spec (s + Z.of_nat i) (s + Z.of_nat n')); [|lia]. cbn [andb] in G. replace (Z.to_nat (s + Z.of_nat i - s)) with i in G by lia.
  destruct Y as [_ [_ C]], Y' as [_ [_ C']]. apply C in D. apply C' in D'.
  destruct (nth_error v i) eqn:E; [|apply nth_error_None in E; lia]. destruct (nth_error v' i) eqn:E'; [|apply nth_error_None in E'; lia]. cbn [key] in G. congruence.
Qed.

(** concentrations in advance *)
Lemma pc_span (p : hpam A) e' gv conc emis conc' emis' pc pc' M cf cn ef en cf' cn' ef' en' : let p' := with_end p e' in
  yearly conc cf cn -> yearly emis ef en -> yearly conc' cf' cn' -> yearly emis' ef' en' -> wf gv ->
  has_columns conc (dkeys gv) -> has_columns emis (dkeys gv) -> has_columns conc' (dkeys gv) -> has_columns emis' (dkeys gv) ->
  cf <= nystart p -> nyend p < cf + Z.of_nat cn -> ef <= nystart p -> nyend p < ef + Z.of_nat en ->
  cf' <= nystart p -> e' < cf' + Z.of_nat cn' -> ef' <= nystart p -> e' < ef' + Z.of_nat en' ->
  nystart p + Z.of_nat M <= nyend p -> nystart p + Z.of_nat M <= e' ->
  conc_run p = true \/ nyend p <= emstart p \/ nystart p < emstart p -> conc_run p = true \/ e' <= emstart p \/ nystart p < emstart p ->
  same_source p e' (nystart p + Z.of_nat M) ->
  agree_on (until (nystart p + Z.of_nat M)) conc conc' -> agree_on (until (nystart p + Z.of_nat M)) emis emis' ->
  precalc_conc p gv conc emis = Ok pc -> precalc_conc p' gv conc' emis' = Ok pc' ->
  yearly pc (nystart p) (Z.to_nat (nyend p - nystart p + 1)) /\ yearly pc' (nystart p) (Z.to_nat (e' - nystart p + 1)) /\ agree_on (until (nystart p + Z.of_nat M)) pc pc'.
Proof.
  intros p' YC YE YC' YE' W HC HE HC' HE' B1 B2 B3 B4 B1' B2' B3' B4' LM LM' CS CS' SS AC AE P P'.
  destruct (P_Gas2.c39_precalc p gv conc emis cf cn ef en) as [q [Q [_ [K [Y V]]]]]; try assumption; try lia.
  destruct (P_Gas2.c39_precalc p' gv conc' emis' cf' cn' ef' en') as [q' [Q' [_ [K' [Y' V']]]]]; try assumption; try (cbn; lia).
  rewrite P in Q. injection Q as <-. rewrite P' in Q'. injection Q' as <-. cbn [nystart nyend with_end p'] in Y', V'. split; [exact Y|]. split; [exact Y'|].
  assert (PR : forall y, y <= nystart p + Z.of_nat M -> (prescribed_year p y <-> prescribed_year p' y)).
  { intros y Ly. unfold prescribed_year. cbn [p' with_end conc_run nyend emstart]. unfold same_source in SS. destruct SS as [SS|[SS|SS]]; [tauto|split; intros _; right; right; lia|tauto]. }
  assert (VA : forall k g i, dget gv k = Some g -> (i <= M)%nat -> fr_get pc k (nystart p + Z.of_nat i) = fr_get pc' k (nystart p + Z.of_nat i)).
  { intros k g i G. induction i as [|i IH]; intros Li.
    - destruct (V k g (nystart p + Z.of_nat 0) G ltac:(lia)) as [V1 _]. destruct (V' k g (nystart p + Z.of_nat 0) G ltac:(lia)) as [V1' _].
      assert (PY : prescribed_year p (nystart p + Z.of_nat 0)) by (unfold prescribed_year; destruct CS as [X|[X|X]]; [left; exact X|right; left; exact X|right; right; lia]).
      assert (PY' := proj1 (PR (nystart p + Z.of_nat 0) ltac:(lia)) PY).
      destruct (V1 PY) as [c [E1 E2]], (V1' PY') as [c' [E1' E2']]. rewrite E2, E2'. rewrite <- E1, <- E1'. apply AC. unfold until. lia.
    - specialize (IH ltac:(lia)). set (y := nystart p + Z.of_nat (S i)). assert (Ly : nystart p <= y <= nyend p) by (unfold y; lia).
      destruct (V k g y G Ly) as [V1 V2]. destruct (V' k g y G ltac:(unfold y; lia)) as [V1' V2'].
      assert (DD : prescribed_year p y \/ ~ prescribed_year p y).
      { unfold prescribed_year. destruct (conc_run p); [left; left; reflexivity|]. destruct (Z_le_gt_dec (nyend p) (emstart p)); [left; right; left; assumption|].
        destruct (Z_lt_le_dec y (emstart p)); [left; right; right; assumption|]. right. intros [X|[X|X]]; [discriminate|lia|lia]. }
      assert (PY := PR y ltac:(unfold y; lia)). destruct DD as [D|D].
      + destruct (V1 D) as [c [E1 E2]], (V1' (proj1 PY D)) as [c' [E1' E2']]. rewrite E2, E2'. rewrite <- E1, <- E1'. apply AC. unfold until, y. lia.
      + assert (D' : ~ prescribed_year p' y) by tauto. destruct (V2 D) as [c [e [E1 [E2 E3]]]], (V2' D') as [c' [e2 [E1' [E2' E3']]]]. rewrite E3, E3'.
        replace (y - 1) with (nystart p + Z.of_nat i) in E1, E1' by (unfold y; lia). rewrite IH, E1' in E1. injection E1 as <-.
        rewrite (proj2 AE k y) in E2 by (unfold until, y; lia). rewrite E2' in E2. injection E2 as <-. reflexivity. }
  split; [congruence|]. intros k z Lz. unfold until in Lz. destruct (dget gv k) as [g|] eqn:G.
  - destruct (Z_lt_le_dec z (nystart p)) as [S|S].
    + assert (I : In k (dkeys gv)) by (apply dget_In_keys, dmem_true; eauto). assert (I' := I). rewrite <- K in I. rewrite <- K' in I'.
      apply dget_In_keys, dmem_true in I. apply dget_In_keys, dmem_true in I'. destruct I as [v D], I' as [v' D'].
      rewrite (fr_get_at _ _ _ _ _ _ Y D), (fr_get_at _ _ _ _ _ _ Y' D'). destruct (Z.leb_spec (nystart p) z); [lia|reflexivity].
    + replace z with (nystart p + Z.of_nat (Z.to_nat (z - nystart p))) by lia. apply (VA k g); [exact G|lia].
  - assert (D : dget (fr_cols pc) k = None) by (apply dget_None_keys; rewrite K; apply dget_None_keys; exact G).
    assert (D' : dget (fr_cols pc') k = None) by (apply dget_None_keys; rewrite K'; apply dget_None_keys; exact G).
    unfold fr_get, fr_col. rewrite D, D'. reflexivity.
Qed.

Lemma ozone_span (p : hpam A) e' gt pc pc' so so' M : (M < List.length (years_of p))%nat -> (M < List.length (years_of (with_end p e')))%nat ->
  agree_on (until (nystart p + Z.of_nat M)) pc pc' ->
  strat_o3_column p gt pc = Ok so -> strat_o3_column (with_end p e') gt pc' = Ok so' -> rows_agree M so so'.
Proof.
  intros LM LM' [_ AG] H H' i Li. unfold strat_o3_column in *. destruct (dget gt "STRAT_O3") as [g|]; cbn [key rbind] in *; [|discriminate].
  destruct (P_Gas4.mapM_nth _ _ _ i i H (P_Gas4.seq_nth_error _ _ (Nat.le_lt_trans _ _ _ Li LM))) as [x [E X]].
  destruct (P_Gas4.mapM_nth _ _ _ i i H' (P_Gas4.seq_nth_error _ _ (Nat.le_lt_trans _ _ _ Li LM'))) as [x' [E' X']].
  rewrite E, E'. f_equal. destruct (Nat.ltb_spec i 3); [congruence|]. cbv zeta in X, X'. cbn [with_end nystart] in X'.
  change (sumcl_at (with_end p e') pc') with (sumcl_at p pc') in X'. change (sumbr_at (with_end p e') pc') with (sumbr_at p pc') in X'.
  destruct (load_ext p pc pc' (nystart p + Z.of_nat (i - 3))) as [C B]; [intros k z Lz; apply AG; unfold until; lia|lia|]. rewrite C, B in X. congruence.
Qed.

Lemma pert_span (pert pert' : option (ptable A)) s n n' M cols cols' out out' : (M < n)%nat -> (M < n')%nat -> dkeys cols = dkeys cols' ->
  (forall k v, dget cols k = Some v -> List.length v = n) -> (forall k v, dget cols' k = Some v -> List.length v = n') ->
  (forall k v v', dget cols k = Some v -> dget cols' k = Some v' -> rows_agree M v v') ->
  (forall z, z <= s + Z.of_nat M -> filter (fun r => Z.eqb (fst (fst r)) z) (Spec_Forc.pert_rows pert) = filter (fun r => Z.eqb (fst (fst r)) z) (Spec_Forc.pert_rows pert')) ->
  match pert with None => Ok cols | Some pt => mapM (pert_vanilla_col pt (zrange s n)) cols end = Ok out ->
  match pert' with None => Ok cols' | Some pt => mapM (pert_vanilla_col pt (zrange s n')) cols' end = Ok out' ->
  dkeys out = dkeys cols /\ (forall k v, dget out k = Some v -> List.length v = n) /\
  dkeys out' = dkeys cols' /\ (forall k v, dget out' k = Some v -> List.length v = n') /\
  forall k v v', dget out k = Some v -> dget out' k = Some v' -> rows_agree M v v'.
Proof.
  intros LM LM' K L L' R AP H H'.
  assert (U : forall n (q : option (ptable A)) (cs o : dict (list A)), (M < n)%nat -> (forall k v, dget cs k = Some v -> List.length v = n) ->
     match q with None => Ok cs | Some pt => mapM (pert_vanilla_col pt (zrange s n)) cs end = Ok o ->
     dkeys o = dkeys cs /\ forall k v, dget o k = Some v -> List.length v = n /\
       exists u, dget cs k = Some u /\ forall i, (i < n)%nat -> nth_error v i = last_set (nth_error u i) (s + Z.of_nat i) (pert_of (Spec_Forc.pert_rows q) k) (nth_error u i)).
  { clear. intros n q cs o Ln LL E. destruct q as [pt|]; cbn [Spec_Forc.pert_rows].
    - apply (P_Gas2.mapM_keys (fun kv => assign_rows (zrange s n) (snd kv) (snd kv) (map (fun r => (fst (fst r), snd r)) (filter (fun r => String.eqb (snd (fst r)) (fst kv)) pt)))) in E.
      destruct E as [KK V]. split; [exact KK|]. intros k v D. specialize (V k). destruct (dget cs k) as [u|] eqn:DU; [|congruence].
      destruct V as [c [E D']]. rewrite D in D'. injection D' as <-. cbn [fst snd] in E. fold (pert_of pt k) in E.
      assert (LU := LL _ _ DU). split.
      + destruct n as [|n']; [lia|]. exact (proj1 (assign_nth s (S n') _ _ _ _ 0%nat LU LU ltac:(lia) E)).
      + exists u. split; [reflexivity|]. intros i Li. exact (proj2 (assign_nth s n _ _ _ _ i LU LU Li E)).
    - injection E as <-. split; [reflexivity|]. intros k v D. split; [exact (LL _ _ D)|]. exists v. split; [exact D|]. reflexivity. }
  destruct (U _ _ _ _ LM L H) as [K1 V1]. destruct (U _ _ _ _ LM' L' H') as [K1' V1'].
  split; [exact K1|]. split; [intros k v D; exact (proj1 (V1 _ _ D))|]. split; [exact K1'|]. split; [intros k v D; exact (proj1 (V1' _ _ D))|].
  intros k v v' D D' i Li. destruct (V1 _ _ D) as [_ [u [DU E]]]. destruct (V1' _ _ D') as [_ [u' [DU' E']]]. rewrite E, E' by lia.
  rewrite (R _ _ _ DU DU' i Li). rewrite (last_set_filter _ _ (pert_of (Spec_Forc.pert_rows pert) k)), (last_set_filter _ _ (pert_of (Spec_Forc.pert_rows pert') k)).
  rewrite (pert_of_year _ (Spec_Forc.pert_rows pert') k) by (apply AP; lia). reflexivity.
Qed.

(** all of it *)
Lemma c91_pre (p : hpam A) e' gt conc emis pert pc erf conc' emis' pert' pc' erf' M :
  precalculate p gt conc emis pert = Ok (pc, erf) -> precalculate (with_end p e') gt conc' emis' pert' = Ok (pc', erf') -> wf gt ->
  covers conc (nystart p) (nyend p) (ordinary gt) -> covers emis (nystart p) (nyend p) (ordinary gt) ->
  covers conc' (nystart p) e' (ordinary gt) -> covers emis' (nystart p) e' (ordinary gt) ->
  conc_run p = true \/ nyend p <= emstart p \/ nystart p < emstart p -> conc_run p = true \/ e' <= emstart p \/ nystart p < emstart p ->
  nystart p + Z.of_nat M <= nyend p -> nystart p + Z.of_nat M <= e' -> same_source p e' (nystart p + Z.of_nat M) ->
  agree_on (until (nystart p + Z.of_nat M)) conc conc' -> agree_on (until (nystart p + Z.of_nat M)) emis emis' ->
  (forall z, z <= nystart p + Z.of_nat M -> filter (fun r => Z.eqb (fst (fst r)) z) (Spec_Forc.pert_rows pert) = filter (fun r => Z.eqb (fst (fst r)) z) (Spec_Forc.pert_rows pert')) ->
  agree_on (until (nystart p + Z.of_nat M)) pc pc' /\ agree_on (until (nystart p + Z.of_nat M)) erf erf'.
Proof.
  unfold precalculate. intros H H' W C1 C2 C1' C2' CS CS' LM LM' SS AC AE AP. destruct (vanilla gt) as [gv|] eqn:V; cbn [rbind] in H, H'; [|discriminate].
  destruct (precalc_conc p gv conc emis) as [q|] eqn:PC; cbn [rbind] in H; [|discriminate]. destruct (precalc_conc (with_end p e') gv conc' emis') as [q'|] eqn:PC'; cbn [rbind] in H'; [|discriminate].
  destruct (precalc_erf gv q) as [e|] eqn:PE; cbn [rbind] in H; [|discriminate]. destruct (precalc_erf gv q') as [e2|] eqn:PE'; cbn [rbind] in H'; [|discriminate].
  destruct (strat_o3_column p gt q) as [so|] eqn:SO; cbn [rbind] in H; [|discriminate]. destruct (strat_o3_column (with_end p e') gt q') as [so'|] eqn:SO'; cbn [rbind] in H'; [|discriminate].
  destruct (Nat.eqb_spec (List.length so) (List.length (fr_index q))) as [LS|]; [|discriminate]. destruct (Nat.eqb_spec (List.length so') (List.length (fr_index q'))) as [LS'|]; [|discriminate].
  cbv zeta in H, H'.
  destruct (match pert with None => _ | Some _ => _ end) as [out|] eqn:EO in H; cbn [rbind] in H; [|discriminate]. destruct (match pert' with None => _ | Some _ => _ end) as [out'|] eqn:EO' in H'; cbn [rbind] in H'; [|discriminate].
  injection H as -> <-. injection H' as -> <-.
  destruct (covers_gv _ _ _ _ _ V C1) as [cf [cn [Y1 [B1 [B2 HC1]]]]]. destruct (covers_gv _ _ _ _ _ V C2) as [ef [en [Y2 [B3 [B4 HC2]]]]].
  destruct (covers_gv _ _ _ _ _ V C1') as [cf' [cn' [Y1' [B1' [B2' HC1']]]]]. destruct (covers_gv _ _ _ _ _ V C2') as [ef' [en' [Y2' [B3' [B4' HC2']]]]].
  assert (WV := P_Forc7.wf_vanilla _ _ V W).
  destruct (pc_span p e' gv conc emis conc' emis' pc pc' M cf cn ef en cf' cn' ef' en') as [YP [YP' AG]]; try assumption.
  split; [exact AG|]. 
  assert (Ly : (M < List.length (years_of p))%nat) by (unfold years_of; rewrite P_Gas2.zrange_len; lia).
  assert (Ly' : (M < List.length (years_of (with_end p e')))%nat) by (unfold years_of; rewrite P_Gas2.zrange_len; cbn [with_end nystart nyend]; lia).
  set (n := Z.to_nat (nyend p - nystart p + 1)) in *. set (n' := Z.to_nat (e' - nystart p + 1)) in *. assert (Mn : (M < n)%nat) by (unfold n; lia). assert (Mn' : (M < n')%nat) by (unfold n'; lia).
  assert (IX : fr_index pc = zrange (nystart p) n) by apply YP. assert (IX' : fr_index pc' = zrange (nystart p) n') by apply YP'.
  rewrite IX in *. rewrite IX' in *. rewrite P_Gas2.zrange_len in LS, LS'.
  assert (KE : dkeys (fr_cols e) = dkeys (fr_cols e2)) by (rewrite (P_Forc7.precalc_erf_keys _ _ _ PE), (P_Forc7.precalc_erf_keys _ _ _ PE'); reflexivity).
  assert (CE : forall k v v', dget (fr_cols e) k = Some v -> dget (fr_cols e2) k = Some v' -> List.length v = n /\ List.length v' = n' /\ rows_agree M v v').
  { intros k v v' D D'. assert (I : In k (dkeys gv)) by (rewrite <- (P_Forc7.precalc_erf_keys _ _ _ PE); apply dget_In_keys, dmem_true; eauto).
    apply dget_In_keys, dmem_true in I. destruct I as [g G]. destruct (P_Forc7.precalc_erf_get _ _ _ _ _ PE WV G) as [c0 [w [E1 E2]]]. destruct (P_Forc7.precalc_erf_get _ _ _ _ _ PE' WV G) as [c0' [w' [E1' E2']]].
    assert (R := agree_rows_span _ _ _ _ _ _ _ _ _ YP YP' Mn Mn' AG E1 E1'). assert (c0 = c0') by (specialize (R 0%nat ltac:(lia)); cbn in R; congruence). subst c0'.
    rewrite D in E2. injection E2 as ->. rewrite D' in E2'. injection E2' as ->. destruct YP as [_ [_ L]], YP' as [_ [_ L']].
    split; [rewrite <- (L _ _ E1); cbn; rewrite map_length; reflexivity|]. split; [rewrite <- (L' _ _ E1'); cbn; rewrite map_length; reflexivity|].
    intros i Li. specialize (R i Li). change (nth_error (map (fun c => (g_sarf g * g_alpha g * (c - c0))%num) (c0 :: w)) i = nth_error (map (fun c => (g_sarf g * g_alpha g * (c - c0))%num) (c0 :: w')) i).
    rewrite !nth_error_map, R. reflexivity. }
  assert (CL : forall k v, dget (fr_cols e) k = Some v -> exists v', dget (fr_cols e2) k = Some v') by (intros k v D; apply dmem_true, dget_In_keys; rewrite <- KE; apply dget_In_keys, dmem_true; eauto).
  assert (CL' : forall k v', dget (fr_cols e2) k = Some v' -> exists v, dget (fr_cols e) k = Some v) by (intros k v D; apply dmem_true, dget_In_keys; rewrite KE; apply dget_In_keys, dmem_true; eauto).
  assert (KD : dkeys (dset (fr_cols e) "STRAT_O3" so) = dkeys (dset (fr_cols e2) "STRAT_O3" so')) by (rewrite !dkeys_dset, KE, (P_Coupled5.keys_dmem _ _ "STRAT_O3" KE); reflexivity).
  destruct (pert_span pert pert' (nystart p) n n' M (dset (fr_cols e) "STRAT_O3" so) (dset (fr_cols e2) "STRAT_O3" so') out out') as [K1 [L1 [K1' [L1' R]]]]; try assumption.
  - intros k v D. rewrite dget_dset in D. destruct (String.eqb _ _); [injection D as <-; exact LS|]. destruct (CL _ _ D) as [v' D']. exact (proj1 (CE _ _ _ D D')).
  - intros k v' D'. rewrite dget_dset in D'. destruct (String.eqb _ _); [injection D' as <-; exact LS'|]. destruct (CL' _ _ D') as [v D]. exact (proj1 (proj2 (CE _ _ _ D D'))).
  - intros k v v' D D'. rewrite dget_dset in D, D'. destruct (String.eqb _ _); [injection D as <-; injection D' as <-; exact (ozone_span _ _ _ _ _ _ _ _ Ly Ly' AG SO SO')|]. exact (proj2 (proj2 (CE _ _ _ D D'))).
  - apply (rows_agree_span _ _ _ n n').
    + split; [reflexivity|]. split; [lia|]. exact L1.
    + split; [reflexivity|]. split; [lia|]. exact L1'.
    + cbn [fr_cols]. rewrite K1, K1'. exact KD.
    + exact Mn.
    + exact Mn'.
    + exact R.
Qed.
End Pre.

Section Whole.
Context {A : Type} {N : Num A} {T : Type}.
Variables (nan : A) (th : thermal A T) (gt : dict (gas A)) (t0 : T).

Lemma c91_before M sc sc' (c c' : inst A) : agree_span M sc sc' c c' -> same_source (c_p sc) (nyend (c_p sc')) (nystart (c_p sc) + Z.of_nat M) -> prepared gt sc -> prepared gt sc' -> wf gt ->
  agree_on (until (nystart (c_p sc) + Z.of_nat M)) (c_pc sc) (c_pc sc') /\ agree_on (until (nystart (c_p sc) + Z.of_nat M)) (c_erf sc) (c_erf sc').
Proof.
  intros U SS P P' W.
  destruct P as [P1 P2 P3 P4], P' as [P1' P2' P3' P4']. assert (PE := sp_p _ _ _ _ _ U). 
    assert (LM := sp_rows _ _ _ _ _ U). assert (LM' := sp_rows' _ _ _ _ _ U). unfold d_years in LM, LM'.
    rewrite (sp_start _ _ _ _ _ U), (sp_end _ _ _ _ _ U) in LM. rewrite (sp_start' _ _ _ _ _ U), (sp_end' _ _ _ _ _ U) in LM'.
    set (e' := nyend (c_p sc')) in *. rewrite PE in P1', P2', P3', P4'. cbn [with_end nystart nyend emstart conc_run] in P2', P3', P4'.
    apply (c91_pre (c_p sc) e' gt (c_conc sc) (c_emis sc) (c_pert sc) (c_pc sc) (c_erf sc) (c_conc sc') (c_emis sc') (c_pert sc') (c_pc sc') (c_erf sc') M); try assumption; try lia.
    - split; [exact (proj1 (sp_conc _ _ _ _ _ U))|]. intros k z Lz. apply (sp_conc _ _ _ _ _ U). left. exact Lz.
    - split; [exact (proj1 (sp_emis _ _ _ _ _ U))|]. intros k z Lz. apply (sp_emis _ _ _ _ _ U). left. exact Lz.
    - exact (sp_pert _ _ _ _ _ U).
Qed.
Lemma c91_any (CC : Type) (year year' : CC -> nat -> A -> A -> CC * A) (data data' : CC -> hst A -> dict (list A) -> result (CC * frame A)) (RC : CC -> CC -> Prop) (cc0 cc0' : CC) M sc sc' c c' carbon carbon' r r' out out' : agree_span M sc sc' c c' -> same_source (c_p sc) (nyend (c_p sc')) (nystart (c_p sc) + Z.of_nat M) ->
  (forall n a a' em dt, (n <= M)%nat -> RC a a' -> RC (fst (year a n em dt)) (fst (year' a' n em dt)) /\ snd (year a n em dt) = snd (year' a' n em dt)) ->
  RC cc0 cc0' -> prepared gt sc -> prepared gt sc' -> wf gt ->
  (forall k, In k reserved -> ~ In k (dkeys gt)) -> distinct_outputs (t_names th) ->
  (forall k, In k ["emissions"; "concentrations"; "forcing"; "carbon cycle"] -> ~ In k (output_names (t_names th))) ->
  any_run nan CC year data sc th c gt t0 cc0 true carbon r = out -> any_run nan CC year' data' sc' th c' gt t0 cc0' true carbon' r' = out' ->
  o_exn out = None -> o_exn out' = None ->
  (forall o, In o (output_names (t_names th)) -> exists v v', in_array (o_results out) o v /\ in_array (o_results out') o v' /\
    List.length v = d_years c /\ List.length v' = d_years c' /\ rows_agree M v v') /\
  frames_until M (o_results out) (o_results out') "forcing" /\
  ((exists k, ordinary gt k) -> frames_until M (o_results out) (o_results out') "concentrations").
Proof.
  intros U SS SD SC P P' W RS DO NF E E' X X'.
  assert (PQ : agree_on (until (nystart (c_p sc) + Z.of_nat M)) (c_pc sc) (c_pc sc') /\ agree_on (until (nystart (c_p sc) + Z.of_nat M)) (c_erf sc) (c_erf sc')).
  { exact (c91_before M sc sc' c c' U SS P P' W). }
  destruct PQ as [AG AF].
  destruct P as [PO _ _ _], P' as [PO' _ _ _]. destruct (erf_keys_in gt _ _ _ _ _ _ PO W) as [W1 [W2 [SI [KI KE]]]]. destruct (erf_keys_in gt _ _ _ _ _ _ PO' W) as [W1' [W2' _]].
  destruct (P_Forc7.c39_columns _ _ _ _ _ _ _ PO) as [C1 [C2 _]].
  split; [exact (P_Span2.c91_arrays nan CC year year' data data' RC sc sc' th c c' gt t0 cc0 cc0' M U SD SC AF W2 W2' DO carbon carbon' r r' out out' NF E E' X X')|]. split.
  - eapply (P_Span2.c91_forcing nan CC year year' data data' RC sc sc' th c c' gt t0 cc0 cc0' M); try eassumption; [exists "STRAT_O3"; exact SI|]. intros k I. split; [exact (RS k I)|]. intros J. exact (RS k I (KE k J)).
  - intros [k O]. eapply (P_Span2.c91_concentrations nan CC year year' data data' RC sc sc' th c c' gt t0 cc0 cc0' M); try eassumption.
    + intros j J. apply dget_In_keys. apply C2. left. exact J.
    + exists k. apply C1. exact O.
    + rewrite in_app_iff. intros [J|J]; [|apply KI in J]; exact (RS "Year" (or_introl eq_refl) J).
Qed.
Lemma c91_inputs (cp cp' : cc_pam A) (cc0 cc0' : cc_state A) M sc sc' c c' carbon carbon' r r' out out' : agree_span M sc sc' c c' -> same_source (c_p sc) (nyend (c_p sc')) (nystart (c_p sc) + Z.of_nat M) ->
  same_decay M cp cp' -> same_carbon M cp cc0 cc0' -> prepared gt sc -> prepared gt sc' -> wf gt ->
  (forall k, In k reserved -> ~ In k (dkeys gt)) -> distinct_outputs (t_names th) ->
  (forall k, In k ["emissions"; "concentrations"; "forcing"; "carbon cycle"] -> ~ In k (output_names (t_names th))) ->
  coupled_run nan cp sc th c gt t0 cc0 true carbon r = out -> coupled_run nan cp' sc' th c' gt t0 cc0' true carbon' r' = out' ->
  o_exn out = None -> o_exn out' = None ->
  (forall o, In o (output_names (t_names th)) -> exists v v', in_array (o_results out) o v /\ in_array (o_results out') o v' /\
    List.length v = d_years c /\ List.length v' = d_years c' /\ rows_agree M v v') /\
  frames_until M (o_results out) (o_results out') "forcing" /\
  ((exists k, ordinary gt k) -> frames_until M (o_results out) (o_results out') "concentrations").
Proof.
  intros U SS SD SC P P' W RS DO NF E E' X X'.
  exact (c91_any (cc_state A) (co2em2conc cp) (co2em2conc cp') (carbon_data nan cp (c_p sc) (c_emis sc)) (carbon_data nan cp' (c_p sc') (c_emis sc')) (same_carbon M cp) cc0 cc0'
    M sc sc' c c' carbon carbon' r r' out out' U SS (fun n a a' em dt L R => P_Span2.same_co2 M cp cp' SD a a' n em dt R L) SC P P' W RS DO NF E E' X X').
Qed.
Lemma c91_box (bp : box_pam A) M sc sc' c c' carbon carbon' r r' out out' : agree_span M sc sc' c c' -> same_source (c_p sc) (nyend (c_p sc')) (nystart (c_p sc) + Z.of_nat M) ->
  prepared gt sc -> prepared gt sc' -> wf gt ->
  (forall k, In k reserved -> ~ In k (dkeys gt)) -> distinct_outputs (t_names th) ->
  (forall k, In k ["emissions"; "concentrations"; "forcing"; "carbon cycle"] -> ~ In k (output_names (t_names th))) ->
  box_coupled_run nan bp sc th c gt t0 true carbon r = out -> box_coupled_run nan bp sc' th c' gt t0 true carbon' r' = out' ->
  o_exn out = None -> o_exn out' = None ->
  (forall o, In o (output_names (t_names th)) -> exists v v', in_array (o_results out) o v /\ in_array (o_results out') o v' /\
    List.length v = d_years c /\ List.length v' = d_years c' /\ rows_agree M v v') /\
  frames_until M (o_results out) (o_results out') "forcing" /\
  ((exists k, ordinary gt k) -> frames_until M (o_results out) (o_results out') "concentrations").
Proof.
  intros U SS P P' W RS DO NF E E' X X'.
  refine (c91_any (box_state A) (fun s _ em dt => box_year bp s em dt) (fun s _ em dt => box_year bp s em dt) (box_data nan bp sc) (box_data nan bp sc') eq box_init box_init
    M sc sc' c c' carbon carbon' r r' out out' U SS _ eq_refl P P' W RS DO NF E E' X X').
  intros n a a' em dt _ <-. split; reflexivity.
Qed.
End Whole.

(** ** Windows of different lengths *)
Section Window.
Context {A : Type} {N : Num A}.

Lemma tab_alike {B} (f : nat -> B) n m m' : (n <= m)%nat -> (n <= m')%nat -> starts_alike n (tab m f) (tab m' f).
Proof. intros L L' i Li. unfold tab. rewrite !nth_error_map, !P_Gas4.seq_nth_error by lia. reflexivity. Qed.
Lemma c91_window M steps y1 y2 rs rb s1 b1 s2 b2 : (M < y1)%nat -> (M < y2)%nat ->
  precalc_r_functions steps y1 rs rb = Some (s1, b1) -> precalc_r_functions steps y2 rs rb = Some (s2, b2) ->
  starts_alike (S M * steps) s1 s2 /\ starts_alike (S M * steps) b1 b2.
Proof.
  intros L L' E E'. assert (Q : (S M * steps <= steps * y1)%nat /\ (S M * steps <= steps * y2)%nat) by nia. destruct Q as [Q Q'].
  unfold precalc_r_functions in E, E'. cbv zeta in E, E'.
  destruct rs as [[c t]|]; [destruct (check_array_consistency c t true); [|discriminate]|]; (destruct rb as [[d u]|]; [destruct (check_array_consistency d u false); [|discriminate]|]);
  injection E as <- <-; injection E' as <- <-; (split; apply tab_alike; assumption).
Qed.
Lemma c91_carbon M cp y1 y2 rs rb s1 b1 s2 b2 : (M < y1)%nat -> (M < y2)%nat ->
  precalc_r_functions (idtm cp) y1 rs rb = Some (s1, b1) -> precalc_r_functions (idtm cp) y2 rs rb = Some (s2, b2) ->
  let c1 := with_window cp y1 s1 b1 in let c2 := with_window cp y2 s2 b2 in
  same_decay M c1 c2 /\ same_carbon M c1 (cc_init c1) (cc_init c2) /\
  forall h h' : cc_state A, h_sol h = h_sol h' -> h_ml h = h_ml h' -> same_carbon M c1 (cc_reset c1 h) (cc_reset c2 h').
Proof.
  intros L L' E E'. destruct (c91_window _ _ _ _ _ _ _ _ _ _ L L' E E') as [S1 S2]. cbv zeta.
  assert (Z0 : starts_alike (S M * idtm cp) (tab (idtm cp * y1) (fun _ => nofZ 0 : A)) (tab (idtm cp * y2) (fun _ => nofZ 0))) by (apply tab_alike; nia).
  split; [split; [reflexivity|split; assumption]|]. split; [constructor; try reflexivity; exact Z0|]. intros h h' E1 E2. constructor; try reflexivity; try assumption; exact Z0.
Qed.
End Window.
