(** * P_Forc4: precalculated forcing (C43, C48), several years (C44, C45), aerosol weight (C46) *)
From Coq Require Import Reals Lra Psatz.
From Verif Require Import PyBase PyBaseFacts Num M_Gas M_Forcing Spec_Gas Spec_Forc P_Gas2 P_Gas3 P_Gas4 P_Forc P_Forc2 P_Forc3.
Open Scope R_scope.

(** *** Precalculated forcing in the first year *)
Lemma mapM_keys' {B C} (f : string * B -> result (string * C)) (l : dict B) ys :
  (forall x z, f x = Ok z -> fst z = fst x) -> mapM f l = Ok ys -> dkeys ys = dkeys l.
Proof.
  intros Hf H. apply mapM_Forall2 in H. unfold dkeys. induction H as [|x z l ys E _ IH]; cbn; [reflexivity|].
  rewrite (Hf _ _ E), IH. reflexivity.
Qed.
Lemma mapM_In {B C} (f : B -> result C) l ys z : mapM f l = Ok ys -> In z ys -> exists x, In x l /\ f x = Ok z.
Proof.
  intros H. apply mapM_Forall2 in H. induction H as [|x w l ys E _ IH]; intros Hin; [contradiction|].
  destruct Hin as [<-|Hin]; [exists x; split; [left|]; auto|]. destruct (IH Hin) as [x' [I E']]. exists x'. split; [right|]; auto.
Qed.

Lemma cell_first (fr : frame R) k y r : fr_index fr = y :: r -> cell fr k y = match dget (fr_cols fr) k with Some v => nth 0 v 0 | None => 0 end.
Proof.
  intros H. unfold cell, fr_get, fr_col, key. destruct (dget (fr_cols fr) k) as [v|]; cbn [rbind]; [|reflexivity].
  rewrite H. destruct v as [|x v]; cbn [combine yget nth]; [reflexivity|]. rewrite Z.eqb_refl. reflexivity.
Qed.

Lemma erf_first gv (pc erf : frame R) k v : precalc_erf gv pc = Ok erf -> In (k, v) (fr_cols erf) -> nth 0 v 0 = 0.
Proof.
  unfold precalc_erf. destruct (fr_index pc); [discriminate|].
  destruct (mapM _ gv) as [cols|] eqn:E; cbn [rbind]; [|discriminate]. intros H; inversion H; subst. cbn [fr_cols]. intros Hin.
  destruct (mapM_In _ _ _ _ E Hin) as [[k' g] [_ E']]. cbn [fst snd] in E'.
  destruct (fr_col pc k') as [u|]; cbn [rbind] in E'; [|discriminate]. destruct u as [|c0 u]; [discriminate|].
  inversion E'; subst. cbn [map nth]. rnum. ring.
Qed.
Lemma erf_wf gv (pc erf : frame R) : wf gv -> precalc_erf gv pc = Ok erf -> wf (fr_cols erf) /\ dkeys (fr_cols erf) = dkeys gv /\ fr_index erf = fr_index pc.
Proof.
  unfold precalc_erf. intros HW. destruct (fr_index pc) eqn:EI; [discriminate|].
  destruct (mapM _ gv) as [cols|] eqn:E; cbn [rbind]; [|discriminate]. intros H; inversion H; subst. cbn [fr_cols fr_index].
  assert (EK : dkeys cols = dkeys gv).
  { eapply mapM_keys'; [|exact E]. intros [k g] zz Hz. cbn [fst snd] in Hz. destruct (fr_col pc k) as [u|]; cbn [rbind] in Hz; [|discriminate].
    destruct u; [discriminate|]. inversion Hz. reflexivity. }
  split; [unfold wf; rewrite EK; exact HW|]. split; auto.
Qed.
Lemma vanilla_wf (gt gv : dict (gas R)) : wf gt -> vanilla gt = Ok gv -> wf gv.
Proof. unfold vanilla. destruct (forallb _ _); [|discriminate]. intros HW H; inversion H; subst. apply wf_filter; auto. Qed.

Lemma strat_first (p : hpam R) gt pc so : strat_o3_column p gt pc = Ok so -> nth 0 so 0 = 0.
Proof.
  intros H. unfold strat_o3_column in H. destruct (key "STRAT_O3" _) as [g|]; cbn [rbind] in H; [|discriminate].
  destruct (List.length (years_of p)) as [|n] eqn:EN.
  - cbn in H. inversion H. reflexivity.
  - destruct (mapM_nth _ _ _ 0%nat 0%nat H eq_refl) as [v [Hv Ev]]. cbn [Nat.ltb Nat.leb] in Ev. inversion Ev as [Ev'].
    rewrite (nth_error_nth _ _ _ Hv), <- Ev'. unfold strat_o3. rnum. rdec. field.
Qed.

Lemma c43_ordinary (p : hpam R) gt conc_in emis pc erf r : wf gt -> precalculate p gt conc_in emis None = Ok (pc, erf) ->
  fr_index pc = nystart p :: r -> wf (fr_cols erf) /\ forall k, cell erf k (nystart p) = 0.
Proof.
  intros HW H HI. unfold precalculate in H.
  destruct (vanilla gt) as [gv|] eqn:EV; cbn [rbind] in H; [|discriminate].
  destruct (precalc_conc p gv conc_in emis) as [pc'|] eqn:EP; cbn [rbind] in H; [|discriminate].
  destruct (precalc_erf gv pc') as [e|] eqn:EE; cbn [rbind] in H; [|discriminate].
  destruct (strat_o3_column p gt pc') as [so|] eqn:ES; cbn [rbind] in H; [|discriminate].
  destruct (Nat.eqb _ _); [|discriminate]. cbn [rbind] in H. inversion H; subst.
  destruct (erf_wf _ _ _ (vanilla_wf _ _ HW EV) EE) as [W _].
  split; [cbn [fr_cols]; apply wf_dset; exact W|]. intros k. rewrite (cell_first _ _ _ r) by exact HI. cbn [fr_cols].
  rewrite dget_dset. destruct (String.eqb "STRAT_O3" k); [eapply strat_first; eauto|].
  destruct (dget (fr_cols e) k) as [v|] eqn:EG; [|reflexivity]. eapply erf_first; eauto. apply dget_Some_In; eauto.
Qed.

(** *** Perturbations of the precalculated forcing *)
Lemma combine_ext_last (ix : list Z) (cur : list R) y (f : R) y0 : List.length cur = List.length ix ->
  yget (combine ix (map (fun kv => if Z.eqb (fst kv) y then f else snd kv) (combine ix cur))) y0 =
  if Z.eqb y y0 then option_map (fun _ => f) (yget (combine ix cur) y0) else yget (combine ix cur) y0.
Proof.
  revert cur. induction ix as [|z ix IH]; intros [|c cur] HL; cbn in HL; try lia.
  - cbn. destruct (Z.eqb y y0); reflexivity.
  - cbn [combine map fst snd yget]. destruct (Z.eqb_spec z y0) as [->|Hne].
    + rewrite (Z.eqb_sym y0 y). destruct (Z.eqb y y0); reflexivity.
    + apply IH. lia.
Qed.
Lemma assign_spec (ix : list Z) (old : list R) (rows : list (Z * R)) : forall cur v,
  List.length cur = List.length ix -> assign_rows ix old cur rows = Ok v ->
  List.length v = List.length ix /\
  forall y, yget (combine ix v) y =
    match pert_last (map (fun r => (fst r, "", snd r)) rows) y "" with
    | Some f => option_map (fun _ => match yget (combine ix old) y with Some o => o + f | None => 0 end) (yget (combine ix cur) y)
    | None => yget (combine ix cur) y
    end.
Proof.
  induction rows as [|[y' f] rows IH]; intros cur v HL H; cbn [assign_rows] in H.
  - inversion H; subst. split; auto.
  - unfold key in H. destruct (yget (combine ix old) y') as [o|] eqn:EO; cbn [rbind] in H; [|discriminate].
    apply IH in H; [|rewrite map_length, combine_length, HL; apply Nat.min_id]. destruct H as [HL' HY]. split; auto.
    intros y. rewrite HY. cbn [map fst snd pert_last String.eqb]. rewrite andb_true_r.
    rewrite combine_ext_last by auto. destruct (pert_last _ y "") as [g|].
    + destruct (Z.eqb_spec y' y); [|reflexivity]. destruct (yget (combine ix cur) y); reflexivity.
    + destruct (Z.eqb_spec y' y); [|reflexivity]. subst. rewrite EO. rnum. reflexivity.
Qed.
Lemma pert_last_filter (pt : ptable R) k y :
  pert_last (map (fun r => (fst r, "", snd r)) (map (fun r => (fst (fst r), snd r)) (filter (fun r => String.eqb (snd (fst r)) k) pt))) y "" = pert_last pt y k.
Proof.
  induction pt as [|[[y' k'] v] pt IH]; cbn [filter map pert_last fst snd]; [reflexivity|].
  destruct (String.eqb k' k); cbn [map pert_last fst snd String.eqb].
  - rewrite IH. reflexivity.
  - rewrite IH. rewrite andb_false_r. destruct (pert_last pt y k); reflexivity.
Qed.

Lemma dget_mapM_fst (f : string * list R -> result (string * list R)) l ys :
  (forall x z, f x = Ok z -> fst z = fst x) -> mapM f l = Ok ys -> forall k,
  match dget l k with Some v => exists u, f (k, v) = Ok (k, u) /\ dget ys k = Some u | None => dget ys k = None end.
Proof.
  intros Hf H. apply mapM_Forall2 in H. intros k. induction H as [|[k' v] [k2 u] l ys E _ IH]; cbn [dget]; [reflexivity|].
  pose proof (Hf _ _ E) as E2. cbn [fst] in E2. subst k2. destruct (String.eqb_spec k' k) as [->|]; [eauto|exact IH].
Qed.

Lemma erf_complete gv (pc erf : frame R) : complete pc -> precalc_erf gv pc = Ok erf -> complete erf.
Proof.
  unfold precalc_erf, complete. intros HC. destruct (fr_index pc) eqn:EI; [discriminate|].
  destruct (mapM _ gv) as [cols|] eqn:E; cbn [rbind]; [|discriminate]. intros H; inversion H; subst. cbn [fr_cols fr_index].
  intros k v Hv. apply dget_Some_In in Hv. destruct (mapM_In _ _ _ _ E Hv) as [[k' g] [_ E']]. cbn [fst snd] in E'.
  unfold fr_col, key in E'. destruct (dget (fr_cols pc) k') as [u|] eqn:EU; cbn [rbind] in E'; [|discriminate].
  specialize (HC _ _ EU). destruct u as [|c0 u]; [discriminate|]. inversion E'; subst. rewrite <- HC. cbn [List.length]. rewrite map_length. reflexivity.
Qed.

Lemma c48_ordinary (p : hpam R) gt conc_in emis pt pc erf0 pc1 erf1 :
  precalculate p gt conc_in emis None = Ok (pc, erf0) -> precalculate p gt conc_in emis (Some pt) = Ok (pc1, erf1) -> complete pc ->
  pc1 = pc /\ fr_index erf1 = fr_index erf0 /\ dkeys (fr_cols erf1) = dkeys (fr_cols erf0) /\
  forall k y, In k (dkeys (fr_cols erf0)) -> In y (fr_index erf0) ->
    cell erf1 k y = cell erf0 k y + match pert_last pt y k with Some f => f | None => 0 end.
Proof.
  intros H0 H1 HC. unfold precalculate in *.
  destruct (vanilla gt) as [gv|] eqn:EV; cbn [rbind] in *; [|discriminate].
  destruct (precalc_conc p gv conc_in emis) as [pc'|] eqn:EP; cbn [rbind] in *; [|discriminate].
  destruct (precalc_erf gv pc') as [e|] eqn:EE; cbn [rbind] in *; [|discriminate].
  destruct (strat_o3_column p gt pc') as [so|] eqn:ES; cbn [rbind] in *; [|discriminate].
  destruct (Nat.eqb_spec (List.length so) (List.length (fr_index pc'))) as [EL|]; [|discriminate]. cbn [rbind] in *.
  inversion H0; subst. clear H0. set (cols := dset (fr_cols e) "STRAT_O3" so) in *.
  destruct (mapM _ cols) as [cols1|] eqn:EM; cbn [rbind] in H1; [|discriminate]. inversion H1; subst. clear H1. cbn [fr_index fr_cols].
  assert (HF : forall x z, pert_vanilla_col pt (fr_index pc1) x = Ok z -> fst z = fst x).
  { intros x z Hz. unfold pert_vanilla_col in Hz. destruct (assign_rows _ _ _ _); cbn [rbind] in Hz; [|discriminate]. inversion Hz. reflexivity. }
  split; [reflexivity|]. split; [reflexivity|]. split; [eapply mapM_keys'; eauto|].
  intros k y Hk Hy. apply dget_In_keys, dmem_true in Hk. destruct Hk as [v Hv].
  pose proof (dget_mapM_fst _ _ _ HF EM k) as D. rewrite Hv in D. destruct D as [u [Du Dk]].
  unfold cell, fr_get, fr_col, key. cbn [fr_cols fr_index]. rewrite Hv, Dk. cbn [rbind].
  unfold pert_vanilla_col in Du. cbn [fst snd] in Du.
  destruct (assign_rows _ _ _ _) as [u'|] eqn:EA; cbn [rbind] in Du; [|discriminate]. inversion Du; subst u'.
  assert (Lv : List.length v = List.length (fr_index pc1)).
  { unfold cols in Hv. rewrite dget_dset in Hv. destruct (String.eqb "STRAT_O3" k); [inversion Hv; subst; auto|].
    pose proof (erf_complete _ _ _ HC EE k v Hv) as L. rewrite L. unfold precalc_erf in EE. destruct (fr_index pc1) eqn:EI; [discriminate|].
    destruct (mapM _ gv); cbn [rbind] in EE; [|discriminate]. inversion EE. reflexivity. }
  destruct (assign_spec _ _ _ _ _ Lv EA) as [_ HY]. rewrite HY, pert_last_filter.
  assert (HG : exists x, yget (combine (fr_index pc1) v) y = Some x).
  { clear - Lv Hy. revert v Lv. induction (fr_index pc1) as [|z l IH]; intros [|x v] Lv; cbn in *; try contradiction; try lia.
    destruct (Z.eqb_spec z y); [eauto|]. destruct Hy; [congruence|]. apply IH; auto. }
  destruct HG as [x Hx]. rewrite Hx. destruct (pert_last pt y k); cbn [option_map]; ring.
Qed.

Lemma pert_last_sum (pt : ptable R) y k : NoDup (map fst pt) -> match pert_last pt y k with Some f => f | None => 0 end = pert_sum pt y k.
Proof.
  induction pt as [|[[y' k'] v] pt IH]; intros HN; cbn [pert_last pert_sum]; [reflexivity|].
  cbn [map fst] in HN. inversion HN as [|? ? Hni HN']; subst. specialize (IH HN').
  destruct (Z.eqb_spec y' y) as [->|]; cbn [andb].
  2:{ destruct (pert_last pt y k); rewrite <- IH; ring. }
  destruct (String.eqb_spec k' k) as [->|].
  2:{ destruct (pert_last pt y k); rewrite <- IH; ring. }
  assert (E : pert_last pt y k = None).
  { clear - Hni. induction pt as [|[[y2 k2] w] l IH]; cbn [pert_last]; [reflexivity|]. rewrite IH by (intros X; apply Hni; right; exact X).
    destruct (Z.eqb_spec y2 y) as [->|]; [|reflexivity]. destruct (String.eqb_spec k2 k) as [->|]; [|reflexivity].
    exfalso. apply Hni. left. reflexivity. }
  rewrite E in *. rewrite <- IH. ring.
Qed.

(** *** The aerosol weight does not see the precalculated gases *)
Lemma c46_independent (p : hpam R) conc_in emis erf1 erf2 pert y luc sun st st1 st2 t1 n1 s1 w1 t2 n2 s2 w2 :
  conc2forc p conc_in emis erf1 pert y luc sun st = Ok ((t1, n1, s1, w1), st1) ->
  conc2forc p conc_in emis erf2 pert y luc sun st = Ok ((t2, n2, s2, w2), st2) -> wf (s_forc st) ->
  (forall k, In k (dkeys (s_forc st)) -> pert_sum (pert_rows pert) y k = 0) -> w1 = w2.
Proof.
  intros H1 H2 HW HP.
  pose proof (c46_weight _ _ _ _ _ _ _ _ _ _ _ _ _ _ H1 HW HP) as X1. pose proof (c46_weight _ _ _ _ _ _ _ _ _ _ _ _ _ _ H2 HW HP) as X2.
  cbv zeta in X1, X2. destruct X1 as [_ [Z1 P1]]. destruct X2 as [_ [Z2 P2]].
  assert (HC : components (s_forc st1) = components (s_forc st2) /\
    forall k, In k (components (s_forc st1)) -> forc_at (s_forc st1) k (forc_ix p y) = forc_at (s_forc st2) k (forc_ix p y)).
  { destruct (stages_exist _ _ _ _ _ _ _ _ _ _ _ _ _ _ H1 HW) as [t3 [st3 [nh3 [sh3 [a1 [pre [a2 [s [S3 SL SF SP SD SR SN SS SE SA SW]]]]]]]]].
    destruct (stages_exist _ _ _ _ _ _ _ _ _ _ _ _ _ _ H2 HW) as [t3' [st3' [nh3' [sh3' [a1' [pre' [a2' [s' [S3' SL' SF' SP' SD' SR' SN' SS' SE' SA' SW']]]]]]]]].
    rewrite S3 in S3'. inversion S3'; subst. rewrite SF in SF'. inversion SF'; subst.
    pose proof (three_spec _ _ _ _ _ _ _ S3) as X. cbv zeta in X. destruct X as [_ [_ [L3 _]]].
    pose proof (lr_len _ _ _ _ _ _ _ _ SL) as L1. cbn [r_st] in L1.
    destruct SR as [PL _ _ _ PA _ _ _ _]. destruct SR' as [PL' _ _ _ PA' _ _ _ _]. cbn [r_st] in *.
    destruct (forc_set_at _ _ _ _ _ _ SE) as [_ [_ [L4 [_ [_ [A4 _]]]]]].
    destruct (forc_set_at _ _ _ _ _ _ SE') as [_ [_ [L4' [_ [_ [A4' _]]]]]].
    assert (K : dkeys (s_forc st1) = dkeys (s_forc (r_st a1'))) by (destruct L4 as [-> _]; apply PL).
    assert (K' : dkeys (s_forc st2) = dkeys (s_forc (r_st a1'))) by (destruct L4' as [-> _]; apply PL').
    split; [unfold components; congruence|]. intros k Hk. unfold components in Hk. apply filter_In in Hk. destruct Hk as [Hk HkT].
    rewrite K in Hk. rewrite A4, A4'. destruct (String.eqb k TOTAL); [discriminate|]. cbn [andb]. rewrite PA, PA' by auto. reflexivity. }
  destruct HC as [HC HV]. rewrite <- HC in Z2, P2.
  rewrite (sum_over_ext (fun k => Rabs (forc_at (s_forc st2) k (forc_ix p y))) (fun k => Rabs (forc_at (s_forc st1) k (forc_ix p y)))) in Z2, P2
    by (intros k Hk; rewrite HV by auto; reflexivity).
  rewrite (sum_over_ext (fun k => if is_aerosol k then Rabs (forc_at (s_forc st2) k (forc_ix p y)) else 0)
    (fun k => if is_aerosol k then Rabs (forc_at (s_forc st1) k (forc_ix p y)) else 0)) in P2
    by (intros k Hk; rewrite HV by auto; reflexivity).
  destruct (Rlt_le_dec 0 (sum_over (fun k => Rabs (forc_at (s_forc st1) k (forc_ix p y))) (components (s_forc st1)))) as [Hp|Hn].
  - rewrite P1, P2 by auto. reflexivity.
  - rewrite Z1, Z2 by auto. reflexivity.
Qed.

(** *** Several years *)
Section Run.
Variables (S Fb : Type) (co2em2conc : S -> Z -> R -> Fb -> S * R).
Variables (p : hpam R) (conc_in emis nat_ch4 nat_n2o erf : frame R) (pert : option (ptable R)).
Notation E2C := (emi2conc S Fb co2em2conc p conc_in emis nat_ch4 nat_n2o).
Notation hrun := (handler_run S Fb co2em2conc p conc_in emis nat_ch4 nat_n2o erf pert).

Definition keeps (st st' : hst R) : Prop := s_forc st' = s_forc st /\ dkeys (s_gas st') = dkeys (s_gas st).
Lemma keeps_refl st : keeps st st. Proof. split; reflexivity. Qed.
Lemma keeps_trans a b c : keeps a b -> keeps b c -> keeps a c.
Proof. intros [A1 A2] [B1 B2]. split; congruence. Qed.
Lemma conc_set_keeps st t y v st' : conc_set st t y v = Ok st' -> keeps st st'.
Proof. intros H. destruct (conc_set_rest _ _ _ _ _ H) as [G [F _]]. split; congruence. Qed.

Lemma fill_keeps y avoid st st' : fill_one_row conc_in y avoid st = Ok st' -> keeps st st'.
Proof.
  unfold fill_one_row. generalize (dkeys (s_conc st)). intros l. revert st. induction l as [|t l IH]; intros st H; cbn [fold_left rbind] in H.
  - inversion H; subst. apply keeps_refl.
  - match type of H with fold_left _ l ?x = _ => destruct x as [s1|] eqn:E end.
    2:{ rewrite fold_err in H by reflexivity. discriminate. }
    apply keeps_trans with s1; [|apply IH; exact H].
    destruct (smem t avoid); [inversion E; subst; apply keeps_refl|].
    destruct (dmem (fr_cols conc_in) t).
    + destruct (fr_get conc_in t y); cbn [rbind] in E; [|discriminate]. eapply conc_set_keeps; eauto.
    + eapply conc_set_keeps; eauto.
Qed.
Lemma co2_keeps cc y fb st cc' st' : co2_year S Fb co2em2conc emis cc y fb st = Ok (cc', st') -> keeps st st'.
Proof.
  unfold co2_year. destruct (co2_emission emis st y); cbn [rbind]; [|discriminate].
  destruct (conc_set st "CO2" y _) as [s1|] eqn:E; cbn [rbind]; [|discriminate]. intros H; inversion H; subst. eapply conc_set_keeps; eauto.
Qed.
Lemma tracer_keeps y fb cc st t cc' st' :
  emi2conc_tracer S Fb co2em2conc p conc_in emis nat_ch4 nat_n2o y fb (Ok (cc, st)) t = Ok (cc', st') -> keeps st st'.
Proof.
  unfold emi2conc_tracer. cbn [rbind]. unfold key at 1. destruct (dget (s_gas st) t) as [g|] eqn:EG; cbn [rbind]; [|discriminate].
  destruct (String.eqb (g_unit g) "-"); [intros H; inversion H; subst; apply keeps_refl|].
  destruct (String.eqb t "CO2"); [apply co2_keeps|].
  match goal with |- (do _ <- ?e; _) = _ -> _ => destruct e as [prev|]; cbn [rbind]; [|discriminate] end.
  match goal with |- (do _ <- ?e; _) = _ -> _ => destruct e as [[g' q']|]; cbn [rbind]; [|discriminate] end.
  destruct (fr_get emis t y); cbn [rbind]; [|discriminate].
  match goal with |- (do _ <- ?e; _) = _ -> _ => destruct e as [s1|] eqn:E; cbn [rbind]; [|discriminate] end.
  intros H; inversion H; subst. apply conc_set_keeps in E. eapply keeps_trans; [|exact E]. split; cbn [s_forc s_gas set_gas]; [reflexivity|].
  rewrite dkeys_dset. unfold dmem. rewrite EG. reflexivity.
Qed.
Lemma emi2conc_keeps y fb cc st cc' st' : E2C y fb cc st = Ok (cc', st') -> keeps st st'.
Proof.
  unfold emi2conc. destruct (conc_run p).
  { destruct (fill_one_row conc_in y [] st) as [s1|] eqn:E; cbn [rbind]; [|discriminate]. intros H; inversion H; subst. eapply fill_keeps; eauto. }
  destruct (y <? emstart p)%Z.
  { destruct (co2_year _ _ _ _ _ _ _ _) as [[c1 s1]|] eqn:E; cbn [rbind]; [|discriminate]. cbn [fst snd].
    destruct (fill_one_row conc_in y ["CO2"] s1) as [s2|] eqn:E2; cbn [rbind]; [|discriminate]. intros H; inversion H; subst.
    eapply keeps_trans; [eapply co2_keeps; eauto|eapply fill_keeps; eauto]. }
  assert (G : forall l cc st, fold_left (emi2conc_tracer S Fb co2em2conc p conc_in emis nat_ch4 nat_n2o y fb) l (Ok (cc, st)) = Ok (cc', st') -> keeps st st').
  { induction l as [|t l IH]; intros c0 s0 H; cbn [fold_left] in H; [inversion H; subst; apply keeps_refl|].
    match type of H with fold_left _ l ?x = _ => destruct x as [[c1 s1]|] eqn:E end.
    2:{ rewrite fold_err in H by reflexivity. discriminate. }
    eapply keeps_trans; [eapply tracer_keeps; eauto|eapply IH; eauto]. }
  intros H. apply G in H. eapply keeps_trans; [|exact H]. split; reflexivity.
Qed.

Definition fine (st : hst R) : Prop := wf (s_forc st) /\ dget (s_gas st) TOTAL = None.
Lemma fine_step y fb luc sun cc st o : fine st -> handler_year S Fb co2em2conc p conc_in emis nat_ch4 nat_n2o erf pert y fb luc sun cc st = Ok o ->
  exists st1, fine st1 /\ conc2forc p conc_in emis erf pert y luc sun st1 = Ok (fst o, snd (snd o)) /\ s_forc st1 = s_forc st /\ fine (snd (snd o)).
Proof.
  intros [HW HT] H. unfold handler_year in H. destruct (E2C y fb cc st) as [[c1 s1]|] eqn:E; cbn [rbind fst snd] in H; [|discriminate].
  destruct (conc2forc _ _ _ _ _ _ _ _ s1) as [[r s2]|] eqn:EC; cbn [rbind fst snd] in H; [|discriminate]. inversion H; subst. cbn [fst snd].
  destruct (emi2conc_keeps _ _ _ _ _ _ E) as [F G].
  assert (F1 : fine s1).
  { split; [unfold wf; rewrite F; exact HW|]. apply dget_None_keys. rewrite G. apply dget_None_keys. exact HT. }
  exists s1. split; [exact F1|]. split; [exact EC|]. split; [exact F|].
  destruct r as [[[t n] s] w]. destruct (total_result _ _ _ _ _ _ _ _ _ _ _ _ _ _ EC (proj1 F1)) as [[K _] [G2 _]].
  destruct F1 as [W1 T1]. split; [unfold wf in *; rewrite K; exact W1|congruence].
Qed.

Lemma run_rows ins : forall y cc st outs st', fine st -> (nystart p <= y)%Z -> hrun y ins cc st = Ok (outs, st') ->
  fine st' /\ dkeys (s_forc st') = dkeys (s_forc st) /\ List.length outs = List.length ins /\
  (forall k i, (i < forc_ix p y)%nat -> forc_at (s_forc st') k i = forc_at (s_forc st) k i).
Proof.
  induction ins as [|[[fb luc] sun] ins IH]; intros y cc st outs st' HF Hy H; cbn [handler_run] in H.
  - inversion H; subst. split; [exact HF|]. split; [reflexivity|]. split; reflexivity.
  - destruct (handler_year _ _ _ _ _ _ _ _ _ _ _ _ _ _ cc st) as [o|] eqn:EH; cbn [rbind] in H; [|discriminate].
    destruct (hrun (y + 1)%Z ins _ _) as [[rest sf]|] eqn:ER; cbn [rbind] in H; [|discriminate]. inversion H; subst. cbn [fst snd] in *.
    destruct (fine_step _ _ _ _ _ _ _ HF EH) as [s1 [F1 [EC [ES F2]]]]. assert (Hy1 : (nystart p <= y + 1)%Z) by lia.
    destruct (IH _ _ _ _ _ F2 Hy1 ER) as [FF [KK [LL RR]]].
    destruct o as [[[[t n] s] w] [c2 s2]]. cbn [fst snd] in *.
    destruct (total_result _ _ _ _ _ _ _ _ _ _ _ _ _ _ EC (proj1 F1)) as [[K _] [_ [R1 _]]].
    split; [exact FF|]. split; [congruence|]. split; [cbn; congruence|].
    intros k i Hi. assert (Hix : forc_ix p (y + 1) = Datatypes.S (forc_ix p y)) by (unfold forc_ix; lia).
    rewrite RR by lia. rewrite R1 by lia. rewrite ES. reflexivity.
Qed.

Lemma c44_run ins : forall y cc st outs st', fine st -> (nystart p <= y)%Z -> hrun y ins cc st = Ok (outs, st') ->
  wf (fr_cols erf) -> just_one p = None -> (forall y' v, ~ In (y', TOTAL, v) (pert_rows pert)) ->
  forall j tot nh sh w, nth_error outs j = Some (tot, nh, sh, w) ->
  let i := forc_ix p (y + Z.of_nat j) in
  tot = reported_sum (s_forc st') erf i (y + Z.of_nat j) /\ forc_at (s_forc st') TOTAL i = tot /\
  exists fb luc sun, nth_error ins j = Some (fb, luc, sun) /\ (nh + sh) / 2 = tot + sun.
Proof.
  induction ins as [|[[fb luc] sun] ins IH]; intros y cc st outs st' HF Hy H HE HJ HP j tot nh sh w Hj; cbn [handler_run] in H.
  - inversion H; subst. destruct j; discriminate.
  - destruct (handler_year _ _ _ _ _ _ _ _ _ _ _ _ _ _ cc st) as [o|] eqn:EH; cbn [rbind] in H; [|discriminate].
    destruct (hrun (y + 1)%Z ins _ _) as [[rest sf]|] eqn:ER; cbn [rbind] in H; [|discriminate]. inversion H; subst. cbn [fst snd] in *.
    destruct (fine_step _ _ _ _ _ _ _ HF EH) as [s1 [F1 [EC [ES F2]]]]. assert (Hy1 : (nystart p <= y + 1)%Z) by lia.
    destruct j as [|j]; cbn [nth_error] in Hj.
    + inversion Hj as [Eo]. rewrite Eo in EC. rewrite Z.add_0_r. cbv zeta.
      destruct (run_rows _ _ _ _ _ _ F2 Hy1 ER) as [FF [KK [_ RR]]].
      assert (Hix : (forc_ix p y < forc_ix p (y + 1))%nat) by (unfold forc_ix; lia).
      pose proof (c44_total _ _ _ _ _ _ _ _ _ _ _ _ _ _ EC (proj1 F1) (proj2 F1) HP HE HJ) as T.
      destruct (total_result _ _ _ _ _ _ _ _ _ _ _ _ _ _ EC (proj1 F1)) as [_ [_ [_ TT]]].
      split; [|split].
      * rewrite T. unfold reported_sum, components. rewrite KK. f_equal. apply sum_over_ext. intros k _. symmetry. apply RR; auto.
      * rewrite RR by auto. exact TT.
      * exists fb, luc, sun. split; [reflexivity|]. eapply c45_mean; [exact EC|apply F1].
    + destruct (IH _ _ _ _ _ F2 Hy1 ER HE HJ HP j tot nh sh w Hj) as [A [B C]].
      replace (y + Z.of_nat (Datatypes.S j))%Z with (y + 1 + Z.of_nat j)%Z by lia. cbv zeta in *. split; [exact A|]. split; [exact B|exact C].
Qed.
End Run.

Lemma reset_fine (p : hpam R) gt erf : wf gt -> dget gt TOTAL = None -> fine (reset_arrays p gt erf).
Proof.
  intros HW HT. split; [|exact HT]. unfold reset_arrays. cbn [s_forc]. apply wf_dset. unfold wf, dkeys. rewrite map_map. cbn [fst]. rewrite map_id.
  apply NoDup_filter. unfold gases_spicy. apply NoDup_filter. exact HW.
Qed.
