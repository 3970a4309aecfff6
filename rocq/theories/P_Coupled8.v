(** * P_Coupled8: C85 from the inputs: what is computed in advance up to a year depends on inputs up to that year *)
From Coq Require Import Lia.
From Verif Require Import PyBase PyBaseFacts Num M_Gas M_TwoLayer M_Forcing M_Carbon M_CarbonBack M_Driver M_Results Spec_Gas Spec_Driver Spec_Reader Spec_Results Spec_Coupled.
From Verif Require P_Gas2 P_Gas4 P_Forc4 P_Forc7 P_Coupled7.
From Verif Require Spec_Forc.
Close Scope R_scope.
Local Open Scope Z_scope.

Section Pre.
Context {A : Type} {N : Num A}.

Lemma yget_none {B} (ix : list Z) : forall (v : list B) z, ~ In z ix -> yget (combine ix v) z = None.
Proof.
  induction ix as [|i ix IH]; intros v z NI; [reflexivity|]. destruct v as [|x v]; [reflexivity|]. cbn [combine yget].
  destruct (Z.eqb_spec i z); [subst; exfalso; apply NI; left; reflexivity|]. apply IH. intros I. apply NI. right. exact I.
Qed.
Lemma fr_get_at (f : frame A) s n k v z : yearly f s n -> dget (fr_cols f) k = Some v ->
  fr_get f k z = if ((s <=? z) && (z <? s + Z.of_nat n))%bool then key YEAR (nth_error v (Z.to_nat (z - s))) else Err (KeyError YEAR).
Proof.
  intros [I [P L]] D. unfold fr_get, fr_col. rewrite D. cbn [key rbind]. rewrite I. destruct (Z.leb_spec s z); cbn [andb].
  - rewrite <- (L _ _ D). rewrite P_Gas2.yget_zrange by lia. destruct (Z.ltb_spec z (s + Z.of_nat (List.length v))); [reflexivity|].
    rewrite (proj2 (nth_error_None _ _)) by lia. reflexivity.
  - rewrite yget_none; [reflexivity|]. unfold zrange. rewrite in_map_iff. intros [i [E _]]. lia.
Qed.
(** rows and entries *)
Lemma rows_agree_on (f f' : frame A) s n M : yearly f s n -> yearly f' s n -> (M < n)%nat -> dkeys (fr_cols f) = dkeys (fr_cols f') ->
  (forall k v v', dget (fr_cols f) k = Some v -> dget (fr_cols f') k = Some v' -> rows_agree M v v') ->
  agree_on (until (s + Z.of_nat M)) f f'.
Proof.
  intros Y Y' L K R. split; [exact K|]. intros k z Lz. unfold until in Lz.
  destruct (dget (fr_cols f) k) as [v|] eqn:D; destruct (dget (fr_cols f') k) as [v'|] eqn:D'.
  - rewrite (fr_get_at _ _ _ _ _ _ Y D), (fr_get_at _ _ _ _ _ _ Y' D'). destruct (Z.leb_spec s z); [|reflexivity]. rewrite (R _ _ _ D D') by lia. reflexivity.
  - exfalso. apply dget_None_keys in D'. apply D'. rewrite <- K. apply dget_In_keys, dmem_true. eauto.
  - exfalso. apply dget_None_keys in D. apply D. rewrite K. apply dget_In_keys, dmem_true. eauto.
  - unfold fr_get, fr_col. rewrite D, D'. reflexivity.
Qed.
Lemma agree_rows (f f' : frame A) s n M k v v' : yearly f s n -> yearly f' s n -> (M < n)%nat -> agree_on (until (s + Z.of_nat M)) f f' ->
  dget (fr_cols f) k = Some v -> dget (fr_cols f') k = Some v' -> rows_agree M v v'.
Proof.
  intros Y Y' L [_ G] D D' i Li. specialize (G k (s + Z.of_nat i)). unfold until in G. specialize (G ltac:(lia)).
  rewrite (fr_get_at _ _ _ _ _ _ Y D), (fr_get_at _ _ _ _ _ _ Y' D') in G. destruct (Z.leb_spec s (s + Z.of_nat i)); [|lia].
  destruct (Z.ltb_spec (s + Z.of_nat i) (s + Z.of_nat n)); [|lia]. cbn [andb] in G. replace (Z.to_nat (s + Z.of_nat i - s)) with i in G by lia.
  destruct Y as [_ [_ C]], Y' as [_ [_ C']]. apply C in D. apply C' in D'.
  destruct (nth_error v i) eqn:E; [|apply nth_error_None in E; lia]. destruct (nth_error v' i) eqn:E'; [|apply nth_error_None in E'; lia]. cbn [key] in G. congruence.
Qed.

(** concentrations in advance *)
Lemma pc_until (p : hpam A) gv conc emis conc' emis' pc pc' M cf cn ef en cf' cn' ef' en' :
  yearly conc cf cn -> yearly emis ef en -> yearly conc' cf' cn' -> yearly emis' ef' en' -> wf gv ->
  has_columns conc (dkeys gv) -> has_columns emis (dkeys gv) -> has_columns conc' (dkeys gv) -> has_columns emis' (dkeys gv) ->
  cf <= nystart p -> nyend p < cf + Z.of_nat cn -> ef <= nystart p -> nyend p < ef + Z.of_nat en ->
  cf' <= nystart p -> nyend p < cf' + Z.of_nat cn' -> ef' <= nystart p -> nyend p < ef' + Z.of_nat en' ->
  nystart p + Z.of_nat M <= nyend p ->
  conc_run p = true \/ nyend p <= emstart p \/ nystart p < emstart p ->
  agree_on (until (nystart p + Z.of_nat M)) conc conc' -> agree_on (until (nystart p + Z.of_nat M)) emis emis' ->
  precalc_conc p gv conc emis = Ok pc -> precalc_conc p gv conc' emis' = Ok pc' ->
  let n := Z.to_nat (nyend p - nystart p + 1) in
  yearly pc (nystart p) n /\ yearly pc' (nystart p) n /\ agree_on (until (nystart p + Z.of_nat M)) pc pc'.
Proof.
  intros YC YE YC' YE' W HC HE HC' HE' B1 B2 B3 B4 B1' B2' B3' B4' LM CS AC AE P P'.
  destruct (P_Gas2.c39_precalc p gv conc emis cf cn ef en) as [q [Q [_ [K [Y V]]]]]; try assumption; try lia.
  destruct (P_Gas2.c39_precalc p gv conc' emis' cf' cn' ef' en') as [q' [Q' [_ [K' [Y' V']]]]]; try assumption; try lia.
  rewrite P in Q. injection Q as <-. rewrite P' in Q'. injection Q' as <-. cbv zeta. split; [exact Y|]. split; [exact Y'|].
  assert (VA : forall k g i, dget gv k = Some g -> (i <= M)%nat -> fr_get pc k (nystart p + Z.of_nat i) = fr_get pc' k (nystart p + Z.of_nat i)).
  { intros k g i G. induction i as [|i IH]; intros Li.
    - destruct (V k g (nystart p + Z.of_nat 0) G ltac:(lia)) as [V1 _]. destruct (V' k g (nystart p + Z.of_nat 0) G ltac:(lia)) as [V1' _].
      assert (PY : prescribed_year p (nystart p + Z.of_nat 0)) by (unfold prescribed_year; destruct CS as [X|[X|X]]; [left; exact X|right; left; exact X|right; right; lia]).
      destruct (V1 PY) as [c [E1 E2]], (V1' PY) as [c' [E1' E2']]. rewrite E2, E2'. rewrite <- E1, <- E1'. apply AC. unfold until. lia.
    - specialize (IH ltac:(lia)). set (y := nystart p + Z.of_nat (S i)). assert (Ly : nystart p <= y <= nyend p) by (unfold y; lia).
      destruct (V k g y G Ly) as [V1 V2]. destruct (V' k g y G Ly) as [V1' V2'].
      assert (DD : prescribed_year p y \/ ~ prescribed_year p y).
      { unfold prescribed_year. destruct (conc_run p); [left; left; reflexivity|]. destruct (Z_le_gt_dec (nyend p) (emstart p)); [left; right; left; assumption|].
        destruct (Z_lt_le_dec y (emstart p)); [left; right; right; assumption|]. right. intros [X|[X|X]]; [discriminate|lia|lia]. }
      destruct DD as [D|D].
      + destruct (V1 D) as [c [E1 E2]], (V1' D) as [c' [E1' E2']]. rewrite E2, E2'. rewrite <- E1, <- E1'. apply AC. unfold until, y. lia.
      + destruct (V2 D) as [c [e [E1 [E2 E3]]]], (V2' D) as [c' [e' [E1' [E2' E3']]]]. rewrite E3, E3'.
        replace (y - 1) with (nystart p + Z.of_nat i) in E1, E1' by (unfold y; lia). rewrite IH, E1' in E1. injection E1 as <-.
        rewrite (proj2 AE k y) in E2 by (unfold until, y; lia). rewrite E2' in E2. injection E2 as <-. reflexivity. }
  split; [congruence|]. intros k z Lz. unfold until in Lz. destruct (dget gv k) as [g|] eqn:G.
  - destruct (Z_lt_le_dec z (nystart p)) as [S|S].
    + assert (I : In k (dkeys gv)) by (apply dget_In_keys, dmem_true; eauto). assert (I' := I). rewrite <- K in I. rewrite <- K' in I'.
      apply dget_In_keys, dmem_true in I. apply dget_In_keys, dmem_true in I'. destruct I as [v D], I' as [v' D'].
      rewrite (fr_get_at _ _ _ _ _ _ Y D), (fr_get_at _ _ _ _ _ _ Y' D'). destruct (Z.leb_spec (nystart p) z); [lia|reflexivity].
    + replace z with (nystart p + Z.of_nat (Z.to_nat (z - nystart p))) by lia. apply (VA k g); [exact G|lia].
  - assert (D : dget (fr_cols pc) k = None) by (apply dget_None_keys; rewrite K; apply dget_None_keys; exact G).
    assert (D' : dget (fr_cols pc') k = None) by (apply dget_None_keys; rewrite K'; apply dget_None_keys; exact G).
    unfold fr_get, fr_col. rewrite D, D'. reflexivity.
Qed.

(** ozone in advance *)
Lemma load_ext (p : hpam A) (f f' : frame A) (y : Z) : (forall k z, z <= y -> fr_get f k z = fr_get f' k z) -> nystart p <= y ->
  sumcl_at p f y = sumcl_at p f' y /\ sumbr_at p f y = sumbr_at p f' y.
Proof.
  intros E L. unfold sumcl_at, sumbr_at. split.
  - generalize (Ok (nofZ 0) : result A). induction (cl_dict p) as [|cm l IH]; intros acc; cbn [fold_left]; [reflexivity|]. rewrite (E (fst cm) y), (E (fst cm) (nystart p)) by lia. apply IH.
  - generalize (Ok (nofZ 0) : result A). induction (br_dict p) as [|cm l IH]; intros acc; cbn [fold_left]; [reflexivity|]. rewrite (E (fst cm) y), (E (fst cm) (nystart p)) by lia. apply IH.
Qed.
Lemma ozone_until (p : hpam A) gt pc pc' so so' M : agree_on (until (nystart p + Z.of_nat M)) pc pc' ->
  strat_o3_column p gt pc = Ok so -> strat_o3_column p gt pc' = Ok so' -> rows_agree M so so'.
Proof.
  intros [_ AG] H H' i Li. unfold strat_o3_column in *. destruct (dget gt "STRAT_O3") as [g|]; cbn [key rbind] in *; [|discriminate].
  destruct (Nat.lt_ge_cases i (List.length (years_of p))) as [L|L].
  - destruct (P_Gas4.mapM_nth _ _ _ i i H (P_Gas4.seq_nth_error _ _ L)) as [x [E X]]. destruct (P_Gas4.mapM_nth _ _ _ i i H' (P_Gas4.seq_nth_error _ _ L)) as [x' [E' X']].
    rewrite E, E'. f_equal. destruct (Nat.ltb_spec i 3); [congruence|]. cbv zeta in X, X'.
    destruct (load_ext p pc pc' (nystart p + Z.of_nat (i - 3))) as [C B]; [intros k z Lz; apply AG; unfold until; lia|lia|]. rewrite C, B in X. congruence.
  - apply P_Gas4.mapM_len in H. apply P_Gas4.mapM_len in H'. rewrite seq_length in *. rewrite (proj2 (nth_error_None so i)), (proj2 (nth_error_None so' i)) by lia. reflexivity.
Qed.

(** perturbations *)
Lemma nth_combine {B C} (l : list B) : forall (m : list C) i, nth_error (combine l m) i = match nth_error l i, nth_error m i with Some a, Some b => Some (a, b) | _, _ => None end.
Proof.
  induction l as [|a l IH]; intros m i; [destruct i; reflexivity|]. destruct m as [|b m]; [destruct i; [reflexivity|]; cbn; destruct (nth_error l i); reflexivity|]. destruct i; [reflexivity|]. cbn [combine nth_error]. apply IH.
Qed.
Definition last_set (old : option A) (z : Z) (rows : list (Z * A)) (cur : option A) : option A :=
  fold_left (fun acc yf => if fst yf =? z then option_map (fun o => (o + snd yf)%num) old else acc) rows cur.
Lemma assign_nth s n : forall rows old cur v i, List.length old = n -> List.length cur = n -> (i < n)%nat -> assign_rows (zrange s n) old cur rows = Ok v ->
  List.length v = n /\ nth_error v i = last_set (nth_error old i) (s + Z.of_nat i) rows (nth_error cur i).
Proof.
  induction rows as [|[y f] rows IH]; intros old cur v i LO LC Li H; cbn [assign_rows] in H.
  - injection H as <-. split; [exact LC|reflexivity].
  - destruct (yget (combine (zrange s n) old) y) as [o|] eqn:EO; cbn [key rbind] in H; [|discriminate].
    apply (IH _ _ _ i LO) in H; [|rewrite map_length, combine_length, P_Gas2.zrange_len; lia|exact Li]. destruct H as [LV E]. split; [exact LV|].
    rewrite E. unfold last_set. cbn [fold_left fst snd]. f_equal. rewrite nth_error_map, nth_combine, P_Gas2.zrange_nth by exact Li.
    destruct (nth_error cur i) as [x|] eqn:EX; [|apply nth_error_None in EX; lia]. cbn [option_map fst snd].
    rewrite Z.eqb_sym. destruct (Z.eqb_spec y (s + Z.of_nat i)) as [->|]; [|reflexivity].
    rewrite <- LO, P_Gas2.yget_zrange in EO by lia. replace (Z.to_nat (s + Z.of_nat i - s)) with i in EO by lia. rewrite EO. reflexivity.
Qed.
Lemma last_set_filter old z rows : forall cur, last_set old z rows cur = last_set old z (filter (fun yf => fst yf =? z) rows) cur.
Proof.
  unfold last_set. induction rows as [|[y f] rows IH]; intros cur; [reflexivity|]. cbn [fold_left filter fst snd]. destruct (Z.eqb_spec y z) as [E|E]; [|apply IH].
  cbn [fold_left fst snd]. rewrite E, Z.eqb_refl. apply IH.
Qed.
Definition pert_of (pt : ptable A) (k : string) : list (Z * A) := map (fun r => (fst (fst r), snd r)) (filter (fun r => String.eqb (snd (fst r)) k) pt).
Lemma pert_of_year (pt pt' : ptable A) k z : filter (fun r => Z.eqb (fst (fst r)) z) pt = filter (fun r => Z.eqb (fst (fst r)) z) pt' ->
  filter (fun yf => fst yf =? z) (pert_of pt k) = filter (fun yf => fst yf =? z) (pert_of pt' k).
Proof.
  assert (Q : forall q : ptable A, filter (fun yf => fst yf =? z) (pert_of q k) = pert_of (filter (fun r => Z.eqb (fst (fst r)) z) q) k).
  { unfold pert_of. induction q as [|r q IH]; [reflexivity|]. cbn [filter]. destruct (String.eqb (snd (fst r)) k) eqn:E1; cbn [map filter fst];
      destruct (fst (fst r) =? z) eqn:E2; cbn [filter]; rewrite ?E1; cbn [map]; rewrite ?IH; reflexivity. }
  intros E. rewrite !Q, E. reflexivity.
Qed.
Lemma pert_until (pert pert' : option (ptable A)) s n M cols cols' out out' : (M < n)%nat -> dkeys cols = dkeys cols' ->
  (forall k v, dget cols k = Some v -> List.length v = n) -> (forall k v, dget cols' k = Some v -> List.length v = n) ->
  (forall k v v', dget cols k = Some v -> dget cols' k = Some v' -> rows_agree M v v') ->
  (forall z, z <= s + Z.of_nat M -> filter (fun r => Z.eqb (fst (fst r)) z) (Spec_Forc.pert_rows pert) = filter (fun r => Z.eqb (fst (fst r)) z) (Spec_Forc.pert_rows pert')) ->
  match pert with None => Ok cols | Some pt => mapM (pert_vanilla_col pt (zrange s n)) cols end = Ok out ->
  match pert' with None => Ok cols' | Some pt => mapM (pert_vanilla_col pt (zrange s n)) cols' end = Ok out' ->
  dkeys out = dkeys cols /\ (forall k v, dget out k = Some v -> List.length v = n) /\
  dkeys out' = dkeys cols' /\ (forall k v, dget out' k = Some v -> List.length v = n) /\
  forall k v v', dget out k = Some v -> dget out' k = Some v' -> rows_agree M v v'.
Proof.
  intros LM K L L' R AP H H'.
  assert (U : forall (q : option (ptable A)) (cs o : dict (list A)), (forall k v, dget cs k = Some v -> List.length v = n) ->
     match q with None => Ok cs | Some pt => mapM (pert_vanilla_col pt (zrange s n)) cs end = Ok o ->
     dkeys o = dkeys cs /\ forall k v, dget o k = Some v -> List.length v = n /\
       exists u, dget cs k = Some u /\ forall i, (i < n)%nat -> nth_error v i = last_set (nth_error u i) (s + Z.of_nat i) (pert_of (Spec_Forc.pert_rows q) k) (nth_error u i)).
  { intros q cs o LL E. destruct q as [pt|]; cbn [Spec_Forc.pert_rows].
    - apply (P_Gas2.mapM_keys (fun kv => assign_rows (zrange s n) (snd kv) (snd kv) (map (fun r => (fst (fst r), snd r)) (filter (fun r => String.eqb (snd (fst r)) (fst kv)) pt)))) in E.
      destruct E as [KK V]. split; [exact KK|]. intros k v D. specialize (V k). destruct (dget cs k) as [u|] eqn:DU; [|congruence].
      destruct V as [c [E D']]. rewrite D in D'. injection D' as <-. cbn [fst snd] in E. fold (pert_of pt k) in E.
      assert (LU := LL _ _ DU). split.
      + destruct n as [|n']; [lia|]. exact (proj1 (assign_nth s (S n') _ _ _ _ 0%nat LU LU ltac:(lia) E)).
      + exists u. split; [reflexivity|]. intros i Li. exact (proj2 (assign_nth s n _ _ _ _ i LU LU Li E)).
    - injection E as <-. split; [reflexivity|]. intros k v D. split; [exact (LL _ _ D)|]. exists v. split; [exact D|]. reflexivity. }
  destruct (U _ _ _ L H) as [K1 V1]. destruct (U _ _ _ L' H') as [K1' V1'].
  split; [exact K1|]. split; [intros k v D; exact (proj1 (V1 _ _ D))|]. split; [exact K1'|]. split; [intros k v D; exact (proj1 (V1' _ _ D))|].
  intros k v v' D D' i Li. destruct (V1 _ _ D) as [_ [u [DU E]]]. destruct (V1' _ _ D') as [_ [u' [DU' E']]]. rewrite E, E' by lia.
  rewrite (R _ _ _ DU DU' i Li). rewrite (last_set_filter _ _ (pert_of (Spec_Forc.pert_rows pert) k)), (last_set_filter _ _ (pert_of (Spec_Forc.pert_rows pert') k)).
  rewrite (pert_of_year _ (Spec_Forc.pert_rows pert') k) by (apply AP; lia). reflexivity.
Qed.

(** all of it *)
Lemma covers_gv (f : frame A) a b (gt gv : dict (gas A)) : vanilla gt = Ok gv -> covers f a b (ordinary gt) -> exists first n, yearly f first n /\ first <= a /\ b < first + Z.of_nat n /\ has_columns f (dkeys gv).
Proof.
  intros V [first [n [Y [L1 [L2 C]]]]]. exists first, n. split; [exact Y|]. split; [exact L1|]. split; [exact L2|]. intros k I. apply C.
  apply in_map_iff in I. destruct I as [[k' g] [E I]]. cbn [fst] in E. subst k'. exists g. apply (P_Forc7.vanilla_plain _ _ V). exact I.
Qed.
Lemma c85_pre (p : hpam A) gt conc emis pert pc erf conc' emis' pert' pc' erf' M :
  precalculate p gt conc emis pert = Ok (pc, erf) -> precalculate p gt conc' emis' pert' = Ok (pc', erf') -> wf gt ->
  covers conc (nystart p) (nyend p) (ordinary gt) -> covers emis (nystart p) (nyend p) (ordinary gt) ->
  covers conc' (nystart p) (nyend p) (ordinary gt) -> covers emis' (nystart p) (nyend p) (ordinary gt) ->
  conc_run p = true \/ nyend p <= emstart p \/ nystart p < emstart p -> nystart p + Z.of_nat M <= nyend p ->
  agree_on (until (nystart p + Z.of_nat M)) conc conc' -> agree_on (until (nystart p + Z.of_nat M)) emis emis' ->
  (forall z, z <= nystart p + Z.of_nat M -> filter (fun r => Z.eqb (fst (fst r)) z) (Spec_Forc.pert_rows pert) = filter (fun r => Z.eqb (fst (fst r)) z) (Spec_Forc.pert_rows pert')) ->
  agree_on (until (nystart p + Z.of_nat M)) pc pc' /\ agree_on (until (nystart p + Z.of_nat M)) erf erf'.
Proof.
  unfold precalculate. intros H H' W C1 C2 C1' C2' CS LM AC AE AP. destruct (vanilla gt) as [gv|] eqn:V; cbn [rbind] in H, H'; [|discriminate].
  destruct (precalc_conc p gv conc emis) as [q|] eqn:PC; cbn [rbind] in H; [|discriminate]. destruct (precalc_conc p gv conc' emis') as [q'|] eqn:PC'; cbn [rbind] in H'; [|discriminate].
  destruct (precalc_erf gv q) as [e|] eqn:PE; cbn [rbind] in H; [|discriminate]. destruct (precalc_erf gv q') as [e'|] eqn:PE'; cbn [rbind] in H'; [|discriminate].
  destruct (strat_o3_column p gt q) as [so|] eqn:SO; cbn [rbind] in H; [|discriminate]. destruct (strat_o3_column p gt q') as [so'|] eqn:SO'; cbn [rbind] in H'; [|discriminate].
  destruct (Nat.eqb_spec (List.length so) (List.length (fr_index q))) as [LS|]; [|discriminate]. destruct (Nat.eqb_spec (List.length so') (List.length (fr_index q'))) as [LS'|]; [|discriminate].
  cbv zeta in H, H'.
  destruct (match pert with None => _ | Some _ => _ end) as [out|] eqn:EO in H; cbn [rbind] in H; [|discriminate]. destruct (match pert' with None => _ | Some _ => _ end) as [out'|] eqn:EO' in H'; cbn [rbind] in H'; [|discriminate].
  injection H as -> <-. injection H' as -> <-.
  destruct (covers_gv _ _ _ _ _ V C1) as [cf [cn [Y1 [B1 [B2 HC1]]]]]. destruct (covers_gv _ _ _ _ _ V C2) as [ef [en [Y2 [B3 [B4 HC2]]]]].
  destruct (covers_gv _ _ _ _ _ V C1') as [cf' [cn' [Y1' [B1' [B2' HC1']]]]]. destruct (covers_gv _ _ _ _ _ V C2') as [ef' [en' [Y2' [B3' [B4' HC2']]]]].
  assert (WV := P_Forc7.wf_vanilla _ _ V W).
  destruct (pc_until p gv conc emis conc' emis' pc pc' M cf cn ef en cf' cn' ef' en') as [YP [YP' AG]]; try assumption.
  split; [exact AG|]. set (n := Z.to_nat (nyend p - nystart p + 1)) in *. assert (Mn : (M < n)%nat) by (unfold n; lia).
  assert (IX : fr_index pc = zrange (nystart p) n) by apply YP. assert (IX' : fr_index pc' = zrange (nystart p) n) by apply YP'.
  rewrite IX in *. rewrite IX' in *. rewrite P_Gas2.zrange_len in LS, LS'.
  assert (KE : dkeys (fr_cols e) = dkeys (fr_cols e')) by (rewrite (P_Forc7.precalc_erf_keys _ _ _ PE), (P_Forc7.precalc_erf_keys _ _ _ PE'); reflexivity).
  assert (CE : forall k v v', dget (fr_cols e) k = Some v -> dget (fr_cols e') k = Some v' -> List.length v = n /\ List.length v' = n /\ rows_agree M v v').
  { intros k v v' D D'. assert (I : In k (dkeys gv)) by (rewrite <- (P_Forc7.precalc_erf_keys _ _ _ PE); apply dget_In_keys, dmem_true; eauto).
    apply dget_In_keys, dmem_true in I. destruct I as [g G]. destruct (P_Forc7.precalc_erf_get _ _ _ _ _ PE WV G) as [c0 [w [E1 E2]]]. destruct (P_Forc7.precalc_erf_get _ _ _ _ _ PE' WV G) as [c0' [w' [E1' E2']]].
    assert (R := agree_rows _ _ _ _ _ _ _ _ YP YP' Mn AG E1 E1'). assert (c0 = c0') by (specialize (R 0%nat ltac:(lia)); cbn in R; congruence). subst c0'.
    rewrite D in E2. injection E2 as ->. rewrite D' in E2'. injection E2' as ->. destruct YP as [_ [_ L]], YP' as [_ [_ L']].
    change (g_sarf g * g_alpha g * (c0 - c0) :: map ?f w)%num with (map f (c0 :: w)) at 1.
    split; [rewrite <- (L _ _ E1); cbn; rewrite map_length; reflexivity|]. split; [rewrite <- (L' _ _ E1'); cbn; rewrite map_length; reflexivity|].
    intros i Li. specialize (R i Li). change (nth_error (map (fun c => (g_sarf g * g_alpha g * (c - c0))%num) (c0 :: w)) i = nth_error (map (fun c => (g_sarf g * g_alpha g * (c - c0))%num) (c0 :: w')) i).
    rewrite !nth_error_map, R. reflexivity. }
  assert (CL : forall k v, dget (fr_cols e) k = Some v -> exists v', dget (fr_cols e') k = Some v') by (intros k v D; apply dmem_true, dget_In_keys; rewrite <- KE; apply dget_In_keys, dmem_true; eauto).
  assert (CL' : forall k v', dget (fr_cols e') k = Some v' -> exists v, dget (fr_cols e) k = Some v) by (intros k v D; apply dmem_true, dget_In_keys; rewrite KE; apply dget_In_keys, dmem_true; eauto).
  destruct (pert_until pert pert' (nystart p) n M (dset (fr_cols e) "STRAT_O3" so) (dset (fr_cols e') "STRAT_O3" so') out out') as [K1 [L1 [K1' [L1' R]]]]; try assumption.
  - rewrite !dkeys_dset. assert (DM : dmem (fr_cols e) "STRAT_O3" = dmem (fr_cols e') "STRAT_O3"); [|rewrite DM, KE; reflexivity].
    destruct (dmem (fr_cols e) "STRAT_O3") eqn:X; symmetry; [apply dget_In_keys; rewrite <- KE; apply dget_In_keys; exact X|].
    apply dmem_false. apply dget_None_keys. rewrite <- KE. apply dget_None_keys, dmem_false. exact X.
  - intros k v D. rewrite dget_dset in D. destruct (String.eqb _ _); [injection D as <-; exact LS|]. destruct (CL _ _ D) as [v' D']. exact (proj1 (CE _ _ _ D D')).
  - intros k v' D'. rewrite dget_dset in D'. destruct (String.eqb _ _); [injection D' as <-; exact LS'|]. destruct (CL' _ _ D') as [v D]. exact (proj1 (proj2 (CE _ _ _ D D'))).
  - intros k v v' D D'. rewrite dget_dset in D, D'. destruct (String.eqb _ _); [injection D as <-; injection D' as <-; exact (ozone_until _ _ _ _ _ _ _ AG SO SO')|]. exact (proj2 (proj2 (CE _ _ _ D D'))).
  - apply (rows_agree_on _ _ _ n).
    + split; [reflexivity|]. split; [lia|]. exact L1.
    + split; [reflexivity|]. split; [lia|]. exact L1'.
    + exact Mn.
    + cbn [fr_cols]. rewrite K1, K1', !dkeys_dset. assert (DM : dmem (fr_cols e) "STRAT_O3" = dmem (fr_cols e') "STRAT_O3"); [|rewrite DM, KE; reflexivity].
      destruct (dmem (fr_cols e) "STRAT_O3") eqn:X; symmetry; [apply dget_In_keys; rewrite <- KE; apply dget_In_keys; exact X|].
      apply dmem_false. apply dget_None_keys. rewrite <- KE. apply dget_None_keys, dmem_false. exact X.
    + exact R.
Qed.
End Pre.

Section Whole.
Context {A : Type} {N : Num A} {T : Type}.
Variables (nan : A) (cp : cc_pam A) (th : thermal A T) (gt : dict (gas A)) (t0 : T) (cc0 : cc_state A).

Lemma erf_keys_in (p : hpam A) conc emis pert pc erf : precalculate p gt conc emis pert = Ok (pc, erf) -> wf gt ->
  wf (fr_cols pc) /\ wf (fr_cols erf) /\ In "STRAT_O3" (dkeys (fr_cols erf)) /\ (forall k, In k (dkeys (fr_cols pc)) -> In k (dkeys gt)) /\ forall k, In k (dkeys (fr_cols erf)) -> In k (dkeys gt).
Proof.
  intros H W. destruct (P_Forc7.c39_columns _ _ _ _ _ _ _ H) as [C1 [C2 _]]. unfold precalculate in H.
  destruct (vanilla gt) as [gv|] eqn:V; cbn [rbind] in H; [|discriminate].
  destruct (precalc_conc _ _ _ _) as [pc0|] eqn:PC; cbn [rbind] in H; [|discriminate]. destruct (precalc_erf _ _) as [erf0|] eqn:PE; cbn [rbind] in H; [|discriminate].
  destruct (strat_o3_column _ _ _) as [so|] eqn:SO; cbn [rbind] in H; [|discriminate]. destruct (Nat.eqb _ _); [|discriminate]. cbv zeta in H.
  destruct (match pert with None => _ | Some _ => _ end) as [cols|] eqn:EC in H; cbn [rbind] in H; [|discriminate]. injection H as -> <-. cbn [fr_cols] in *.
  assert (WV := P_Forc7.wf_vanilla _ _ V W). assert (K1 := P_Forc7.precalc_conc_keys _ _ _ _ _ PC). assert (K2 := P_Forc7.precalc_erf_keys _ _ _ PE).
  assert (SG : In "STRAT_O3" (dkeys gt)).
  { unfold strat_o3_column in SO. destruct (dget gt "STRAT_O3") eqn:D; cbn [key rbind] in SO; [|discriminate]. apply dget_In_keys, dmem_true. eauto. }
  assert (G1 : forall k, In k (dkeys (fr_cols pc)) -> In k (dkeys gt)).
  { intros k I. apply C1 in I. destruct I as [g [I _]]. apply (in_map fst) in I. exact I. }
  split; [unfold wf in *; congruence|]. split.
  { assert (WD : wf (dset (fr_cols erf0) "STRAT_O3" so)) by (apply wf_dset; unfold wf in *; congruence).
    destruct pert as [pt|]; [|injection EC as <-; exact WD]. unfold wf in *. erewrite P_Forc4.mapM_keys'; [exact WD| |exact EC].
    intros [k v] z Q. unfold pert_vanilla_col in Q. cbn [fst snd] in Q. destruct (assign_rows _ _ _ _); cbn [rbind] in Q; [|discriminate]. injection Q as <-. reflexivity. }
  split; [apply C2; right; reflexivity|]. split; [exact G1|]. intros k I. apply C2 in I. destruct I as [I| ->]; [apply G1; exact I|exact SG].
Qed.
Lemma c85_prepared M sc sc' c c' : agree_inputs M sc sc' c c' -> prepared gt sc -> prepared gt sc' -> wf gt ->
  agree_until M sc sc' c c' /\ agree_on (until (nystart (c_p sc) + Z.of_nat M)) (c_pc sc) (c_pc sc').
Proof.
  intros U [P1 P2 P3 P4] [P1' P2' P3' P4'] W. pose proof U as [PP ST EN ST' EN' LM [RF RF'] L1 L2 L3 L4 AC AE A4 A2 AP]. rewrite PP in *.
  destruct (c85_pre (c_p sc) gt (c_conc sc) (c_emis sc) (c_pert sc) (c_pc sc) (c_erf sc) (c_conc sc') (c_emis sc') (c_pert sc') (c_pc sc') (c_erf sc') M) as [G1 G2]; try assumption.
  - unfold d_years in LM. rewrite ST, EN in LM. lia.
  - split; [exact (proj1 AC)|]. intros k z Lz. apply AC. left. exact Lz.
  - split; [exact (proj1 AE)|]. intros k z Lz. apply AE. left. exact Lz.
  - split; [|exact G1]. split; [exact U|exact G2].
Qed.
Lemma c85_inputs M sc sc' c c' carbon carbon' r r' out out' : agree_inputs M sc sc' c c' -> prepared gt sc -> prepared gt sc' -> wf gt ->
  (forall k, In k reserved -> ~ In k (dkeys gt)) -> distinct_outputs (t_names th) ->
  (forall k, In k ["emissions"; "concentrations"; "forcing"; "carbon cycle"] -> ~ In k (output_names (t_names th))) ->
  coupled_run nan cp sc th c gt t0 cc0 true carbon r = out -> coupled_run nan cp sc' th c' gt t0 cc0 true carbon' r' = out' ->
  o_exn out = None -> o_exn out' = None ->
  (forall o, In o (output_names (t_names th)) -> exists v v', in_array (o_results out) o v /\ in_array (o_results out') o v' /\
    List.length v = d_years c /\ List.length v' = d_years c /\ rows_agree M v v') /\
  frames_until M (o_results out) (o_results out') "forcing" /\
  ((exists k, ordinary gt k) -> frames_until M (o_results out) (o_results out') "concentrations").
Proof.
  intros U P P' W RS DO NF E E' X X'. destruct (c85_prepared _ _ _ _ _ U P P' W) as [UU AG].
  destruct P as [PO _ _ _], P' as [PO' _ _ _]. destruct (erf_keys_in _ _ _ _ _ _ PO W) as [W1 [W2 [SI [KI KE]]]]. destruct (erf_keys_in _ _ _ _ _ _ PO' W) as [W1' [W2' _]].
  destruct (P_Forc7.c39_columns _ _ _ _ _ _ _ PO) as [C1 [C2 _]].
  split; [exact (P_Coupled7.c85_a nan cp th gt t0 cc0 M sc sc' c c' carbon carbon' r r' out out' UU W2 W2' DO NF E E' X X')|]. split.
  - eapply (P_Coupled7.c85_f nan cp th gt t0 cc0 M sc sc' c c'); try eassumption; [exists "STRAT_O3"; exact SI|]. intros k I. split; [exact (RS k I)|]. intros J. exact (RS k I (KE k J)).
  - intros [k O]. eapply (P_Coupled7.c85_c nan cp th gt t0 cc0 M sc sc' c c'); try eassumption.
    + intros j J. apply dget_In_keys. apply C2. left. exact J.
    + exists k. apply C1. exact O.
    + rewrite in_app_iff. intros [J|J]; [|apply KI in J]; exact (RS "Year" (or_introl eq_refl) J).
Qed.
End Whole.
