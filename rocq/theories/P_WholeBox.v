(** * P_WholeBox: proofs about M_WholeBox *)
From Verif Require Import PyBase PyBaseFacts Num M_Utils M_Flat M_Pams M_Gas M_Forcing M_RFuns M_Carbon M_CarbonBox M_TwoLayer M_UDM M_Driver M_Results M_Names M_Reader M_BoxRun M_Parallel M_Whole M_WholeBox
  Spec_Driver Spec_Pams Spec_Parallel Spec_Rerun Spec_Whole Spec_Numbers Spec_WholeBox P_Pams P_CarbonPams P_PamsDefaults P_PamsMain P_Driver P_Driver2 P_Driver3 P_Parallel P_Parallel2 P_Parallel3 P_Rerun P_Rerun2 P_Whole P_Numbers.

(** ** Parameters *)
Lemma box_required_wf : wf box_required.
Proof. apply wf_lit. reflexivity. Qed.
Opaque cut_and_check_pamset update_pam_if_numeric.
Lemma box_reset_get d p k v : opt_wf p -> In k (dkeys box_required) -> dget d k = Some v -> dget (box_reset d p) k = Some (num_or p k v).
Proof.
  intros W K D. unfold box_reset. destruct p as [p|].
  - rewrite upd_get by exact W. unfold spec_updated. rewrite D. unfold num_or, given. destruct (dget p k) as [u|]; [|reflexivity].
    assert (S : smem k (dkeys box_required) = true) by (apply smem_In, K). rewrite S. cbn [andb]. destruct (is_num u); reflexivity.
  - Transparent update_pam_if_numeric. exact D.
Qed.
Opaque update_pam_if_numeric.
Lemma box_resets_get hist : forall d k v, Forall opt_wf hist -> In k (dkeys box_required) -> dget d k = Some v ->
  dget (box_resets d hist) k = Some (spec_last_num k v hist).
Proof.
  induction hist as [|p r IH]; intros d k v F K D; [exact D|]. cbn [box_resets spec_last_num]. inversion F as [|? ? Hp Hr]; subst.
  rewrite (IH _ k (num_or p k v) Hr K (box_reset_get d p k v Hp K D)). f_equal. unfold num_or, given. destruct p as [p|]; [|reflexivity]. destruct (dget p k); reflexivity.
Qed.
Lemma box_resets_snoc hist : forall d p, box_resets d (hist ++ [p]) = box_reset (box_resets d hist) p.
Proof. induction hist as [|q r IH]; intros d p; [reflexivity|apply IH]. Qed.
Lemma handler_box_get env emi preind d k v : is_num v = true -> handler_box env emi None preind = Ok d -> dget box_required k = Some v -> dget d k = Some v.
Proof.
  intros NV H D. assert (K : In k (dkeys box_required)) by (apply dget_In_keys, dmem_true; eauto).
  assert (NP : k <> "preindustrial_co2_conc" /\ k <> "years_tot").
  { cbn in K. repeat (destruct K as [<-|K]; [split; discriminate|]). contradiction. }
  unfold handler_box in H. set (pc := dset [] "preindustrial_co2_conc" preind) in *. fold (handler_dict env emi) in H.
  assert (WP : wf pc) by (apply wf_dset, wf_nil). assert (NG : dget pc k = None) by (unfold pc; rewrite dget_dset_neq by (intros E; symmetry in E; tauto); reflexivity).
  clearbody pc. generalize dependent (handler_dict env emi). intros hp H. unfold box_carbon_init in H.
  assert (Q : carbon_cycle_init_pamsets hp (Some pc) box_required None = Ok (cut_and_check_pamset window_required hp [], cut_and_check_pamset box_required pc [])) by reflexivity.
  rewrite Q in H. clear Q. cbn [rbind] in H.
  assert (G : dget (cut_and_check_pamset box_required pc []) k = Some v).
  { rewrite cut_and_check_get by first [exact box_required_wf | exact WP]. unfold spec_completed. rewrite D, NG. reflexivity. }
  assert (WC : wf (cut_and_check_pamset box_required pc [])) by apply cut_and_check_wf.
  generalize dependent (cut_and_check_pamset box_required pc []). intros cc H G WC. generalize dependent (cut_and_check_pamset window_required hp []). intros win H.
  cbn [rbind] in H. apply Ok_inj in H. rewrite <- H. clear H.
  assert (B : dget (dset (dupdate win cc) "years_tot" (years_tot_of win)) k = Some v).
  { rewrite dget_dset_neq by (intros E; symmetry in E; tauto). rewrite dget_dupdate by exact WC. rewrite G. reflexivity. }
  rewrite (box_reset_get _ (Some pc) k v WP K).
  - unfold num_or, given. rewrite NG. reflexivity.
  - rewrite (box_reset_get _ (Some cc) k v WC K B). unfold num_or, given. rewrite G, NV. reflexivity.
Qed.
Opaque handler_box.

(** The handler's numbers are those of the last set, apart from "just_one" and the window. *)
Lemma handler_two {A} {N : Num A} (number : pyfloat -> A) cl br env init hist hist' p d d' : opt_wf init -> Forall opt_wf hist -> Forall opt_wf hist' -> opt_wf p ->
  spec_last_any "just_one" None (init :: hist ++ [p]) = spec_last_any "just_one" None (init :: hist' ++ [p]) ->
  handler_reruns env (handler_init env init) (hist ++ [p]) = Ok d -> handler_reruns env (handler_init env init) (hist' ++ [p]) = Ok d' ->
  hpam_of number cl br d = hpam_of number cl br d'.
Proof.
  intros WI F F' O J H H'.
  assert (FA : forall h, Forall opt_wf h -> Forall opt_wf (h ++ [p])) by (intros h X; apply Forall_app; split; [exact X | constructor; [exact O | constructor]]).
  destruct (c05 env init hist p WI F O) as (e & E & Q1 & Q2 & Q3). rewrite H in E. injection E as <-.
  destruct (c05 env init hist' p WI F' O) as (e & E & R1 & R2 & R3). rewrite H' in E. injection E as <-.
  destruct (c04 env init (hist ++ [p]) WI (FA _ F)) as (e & E & QW & QC). rewrite H in E. injection E as <-.
  destruct (c04 env init (hist' ++ [p]) WI (FA _ F')) as (e & E & RW & RC). rewrite H' in E. injection E as <-.
  assert (X : forall k, In k ["idtm"; "nystart"; "nyend"; "emstart"] -> whole_at d k = whole_at d' k).
  { intros k I. apply alike_whole. destruct (QW k I) as (v & w & V1 & V2 & V3). destruct (RW k I) as (v' & w' & V1' & V2' & V3').
    rewrite V1 in V1'. injection V1' as <-. exists v, v', w. auto. }
  assert (Y : forall k v, In k ["qbmb"; "qo3"; "qindso2"; "qh2o_ch4"; "ref_yr"; "qnmvoc"; "qnh3"; "qnox"] -> dget handler_required k = Some v -> dget d k = dget d' k).
  { intros k v I D. rewrite (Q1 k v I D), (R1 k v I D). reflexivity. }
  assert (Z : forall a k, In (a, k) [("SO2", "qdirso2"); ("BC", "qbc"); ("OC", "qoc")] -> dget d k = dget d' k).
  { intros a k I. destruct (c50 env init hist p a k WI F O I) as [_ (e & E & S)]. rewrite H in E. injection E as <-.
    destruct (c50 env init hist' p a k WI F' O I) as [_ (e & E & S')]. rewrite H' in E. injection E as <-. congruence. }
  unfold hpam_of. rewrite Q2, R2, QC, RC, Q3, R3, J.
  rewrite (X "nystart"), (X "nyend"), (X "emstart") by (cbn; tauto).
  rewrite (whole_at_same d d' "ref_yr") by (apply (Y _ (VInt 2010)); [cbn; tauto|reflexivity]).
  rewrite (num_at_same number d d' "qdirso2"), (num_at_same number d d' "qbc"), (num_at_same number d d' "qoc") by (eapply Z; cbn; tauto).
  assert (Y' : forall k, In k ["qbmb"; "qo3"; "qindso2"; "qh2o_ch4"; "qnmvoc"; "qnh3"; "qnox"] -> num_at number d k = num_at number d' k).
  { intros k I. apply num_at_same. cbn in I. repeat (destruct I as [<-|I]; [eapply Y; [cbn; tauto|reflexivity]|]). contradiction. }
  rewrite !Y' by (cbn; tauto). reflexivity.
Qed.

Section Boxes.
Context {A : Type} {N : Num A}.
Variables (nan : A) (number : pyfloat -> A).

(** ** What the box carbon cycle reads *)
Definition box_read (p : box_pam A) : list A :=
  [b_beta_f p; b_land_sens p; b_soil_rate p; b_exchange p; b_veg_frac p; b_sol_base p; b_sol_coeff p].
Lemma run_read p q sc {T} (th : thermal A T) c gt t0 a b r : box_read p = box_read q -> box_coupled_run nan p sc th c gt t0 a b r = box_coupled_run nan q sc th c gt t0 a b r.
Proof. destruct p, q. unfold box_read. cbn. intros E. inversion E; subst. reflexivity. Qed.
Lemma box_pam_numbers d0 hist : (forall k v, dget box_required k = Some v -> dget d0 k = Some v) -> Forall opt_wf hist ->
  exists p, box_pam_of number (box_resets d0 hist) = Ok p /\ box_numbers number hist p.
Proof.
  intros D F.
  assert (G : forall k v, dget box_required k = Some v -> dget (box_resets d0 hist) k = Some (spec_last_num k v hist)).
  { intros k v B. apply box_resets_get; [exact F| |apply D, B]. apply dget_In_keys, dmem_true; eauto. }
  assert (NM : forall k l v, is_num v = true -> is_num (spec_last_num k v l) = true).
  { intros k l. induction l as [|p r IH]; intros v V; [exact V|]. cbn [spec_last_num]. apply IH. destruct p as [p|]; [|exact V]. destruct (dget p k) as [u|]; [|exact V].
    destruct (is_num u) eqn:U; [exact U|exact V]. }
  assert (X : forall k v, dget box_required k = Some v -> is_num v = true -> exists a, num_at number (box_resets d0 hist) k = Ok a /\ stands_for number (spec_last_num k v hist) a).
  { intros k v B V. unfold num_at, as_number. rewrite (G k v B). destruct (is_num_num _ (NM k hist v V)) as [x E]. rewrite E. exists (number x). split; [reflexivity|]. exists x. auto. }
  unfold box_pam_of. generalize dependent (box_resets d0 hist). intros d _ X.
  repeat match goal with |- exists p, rbind (num_at _ _ ?k) _ = _ /\ _ =>
    let a := fresh "a" in let E := fresh "E" in let S := fresh "S" in destruct (X k _ eq_refl eq_refl) as (a & E & S); rewrite E; cbn [rbind] end.
  eexists. split; [reflexivity|]. intros k v f I. cbn in I. repeat (destruct I as [I|I]; [inversion I; subst; clear I; assumption|]). contradiction.
Qed.
Lemma box_numbers_read hist hist' p q : (forall k d f, In (k, d, f) (@box_places A) -> spec_last_num k d hist = spec_last_num k d hist') ->
  box_numbers number hist p -> box_numbers number hist' q -> box_read p = box_read q.
Proof.
  intros H P Q.
  assert (X : forall k d f, In (k, d, f) (@box_places A) -> f p = f q).
  { intros k d f I. destruct (P k d f I) as (x & E & ->). destruct (Q k d f I) as (y & E' & ->). rewrite (H k d f I), E' in E. congruence. }
  unfold box_read.
  rewrite (X _ _ (@b_beta_f A) ltac:(cbn; tauto)), (X _ _ (@b_land_sens A) ltac:(cbn; tauto)), (X _ _ (@b_soil_rate A) ltac:(cbn; tauto)), (X _ _ (@b_exchange A) ltac:(cbn; tauto)),
    (X _ _ (@b_veg_frac A) ltac:(cbn; tauto)), (X _ _ (@b_sol_base A) ltac:(cbn; tauto)), (X _ _ (@b_sol_coeff A) ltac:(cbn; tauto)). reflexivity.
Qed.

(** ** A run of a used instance *)
Definition bakin (w0 w : boxed A) (cs : list config) : Prop :=
  e_env w = e_env w0 /\ e_thermal w = e_thermal w0 /\ e_inst w = e_inst w0 /\ e_fixed w = e_fixed w0 /\ d_rf (e_inst w0) = None /\
  earlier_runs (names_of (e_thermal w0)) (e_gas w0) (e_gas w) (e_results w) /\
  handler_reruns (e_env w0) (e_pams w0) (map cf_emiconc cs) = Ok (e_pams w) /\ e_carbon w = box_resets (e_carbon w0) (map cf_carbon cs).
Local Notation GO w c := (boxed_run nan number w (cf_udm c) (cf_emiconc c) (cf_carbon c)).
Section Model.
Context {T : Type} (th : thermal A T) (t0 : T).
Hypothesis DO : distinct_outputs (t_names th).
Local Notation OUT w0 hp bp := (box_coupled_run nan bp (scenario_of hp (e_fixed w0)) th (e_inst w0) (e_gas w0) t0 true true []).
Lemma box_outcome w0 w cs hp bp : names_of (e_thermal w0) = t_names th -> bakin w0 w cs ->
  let o := box_coupled_run nan bp (scenario_of hp (e_fixed w)) th (e_inst w) (e_gas w) t0 true true (e_results w) in
  o_exn o = o_exn (OUT w0 hp bp) /\ (o_exn (OUT w0 hp bp) = None -> same_results (o_results o) (o_results (OUT w0 hp bp))) /\
  earlier_runs (names_of (e_thermal w0)) (e_gas w0) (s_gas (snd (o_handler o))) (o_results o).
Proof.
  intros NM (H1 & H2 & H3 & H4 & R & E & _). cbv zeta. rewrite H3, H4, NM in *. set (sc := scenario_of hp (e_fixed w0)).
  pose proof (box_rerun th nan bp sc (e_inst w0) (e_gas w0) (e_gas w) t0 true true (e_results w) DO E) as (SE & _ & SR).
  pose proof (one_more_run (t_names th) (e_gas w0) T th (e_gas w) (e_results w) nan (box_state A) (fun s _ em dt => box_year bp s em dt) (box_data nan bp sc)
    sc (e_inst w0) t0 box_init true true eq_refl E) as E'. cbv zeta in E'.
  pose proof (run_has th DO nan (box_state A) (fun s _ em dt => box_year bp s em dt) (box_data nan bp sc) sc (e_inst w0) (e_gas w0) t0 box_init [] R) as HAS.
  fold (box_coupled_run nan bp sc th (e_inst w0) (e_gas w0) t0 true true []) in HAS.
  fold (box_coupled_run nan bp sc th (e_inst w0) (e_gas w) t0 true true (e_results w)) in E'.
  split; [symmetry; exact SE|]. split; [|exact E'].
  apply (earlier_facts _ DO) in E'. destruct E' as [_ KN]. intros OE k. symmetry. specialize (SR k). specialize (HAS OE k). specialize (KN k).
  match goal with |- ?l = ?r => destruct l as [v|] eqn:L; [symmetry; apply SR; reflexivity|]; destruct r as [v|] eqn:Q; [|reflexivity] end.
  exfalso. apply HAS; [apply KN; discriminate|reflexivity].
Qed.
Lemma box_back w0 w cs pams pc b : names_of (e_thermal w0) = t_names th -> bakin w0 w cs -> box_from nan number th t0 pams pc w = Ok b ->
  exists hp bp, hpam_of number (f_cl (e_fixed w0)) (f_br (e_fixed w0)) pams = Ok hp /\ box_pam_of number pc = Ok bp /\ o_exn (OUT w0 hp bp) = None /\
    same_results (e_results b) (o_results (OUT w0 hp bp)) /\
    (e_env b = e_env w /\ e_thermal b = e_thermal w /\ e_inst b = e_inst w /\ e_fixed b = e_fixed w /\ e_pams b = pams /\ e_carbon b = pc) /\
    earlier_runs (names_of (e_thermal w0)) (e_gas w0) (e_gas b) (e_results b).
Proof.
  intros NM K. unfold box_from. pose proof K as (_ & _ & _ & H4 & _). rewrite H4 at 1 2.
  destruct (hpam_of _ _ _ _) as [hp|]; cbn [rbind]; [|discriminate]. destruct (box_pam_of _ _) as [bp|]; cbn [rbind]; [|discriminate]. cbv zeta.
  destruct (box_outcome w0 w cs hp bp NM K) as (O1 & O2 & O3). cbv zeta in O1, O2, O3. rewrite O1. destruct (o_exn (OUT w0 hp bp)) eqn:OE; [discriminate|].
  intros X. injection X as <-. exists hp, bp. cbn [e_results e_env e_thermal e_inst e_fixed e_pams e_carbon e_gas]. repeat (split; [first [reflexivity | auto]|]); auto.
Qed.
Lemma box_forth w0 w cs pams pc hp bp : names_of (e_thermal w0) = t_names th -> bakin w0 w cs ->
  hpam_of number (f_cl (e_fixed w0)) (f_br (e_fixed w0)) pams = Ok hp -> box_pam_of number pc = Ok bp -> o_exn (OUT w0 hp bp) = None ->
  exists b, box_from nan number th t0 pams pc w = Ok b /\ same_results (e_results b) (o_results (OUT w0 hp bp)).
Proof.
  intros NM K HP BP OE. unfold box_from. pose proof K as (_ & _ & _ & H4 & _). rewrite <- H4 in HP at 1. rewrite <- H4 in HP. rewrite HP, BP. cbn [rbind]. cbv zeta.
  destruct (box_outcome w0 w cs hp bp NM K) as (O1 & O2 & O3). cbv zeta in O1, O2, O3. rewrite O1, OE. eexists. split; [reflexivity|]. cbn [e_results]. apply O2, OE.
Qed.
End Model.

Lemma parameters_of w0 w cs c q : bakin w0 w cs -> box_parameters w (cf_emiconc c) (cf_carbon c) = Ok q ->
  handler_reruns (e_env w0) (e_pams w0) (map cf_emiconc (cs ++ [c])) = Ok (fst q) /\ snd q = box_resets (e_carbon w0) (map cf_carbon (cs ++ [c])).
Proof.
  intros (H1 & _ & _ & _ & _ & _ & H7 & H8). unfold box_parameters. rewrite H1, H8, !map_app. cbn [map]. rewrite handler_reruns_snoc, H7. cbn [rbind].
  destruct (handler_rerun _ _ _) as [p|]; cbn [rbind]; [|discriminate]. intros X. injection X as <-. cbn [fst snd]. split; [reflexivity|]. symmetry. apply box_resets_snoc.
Qed.
Lemma box_akin w0 w cs c b : bakin w0 w cs -> GO w c = Ok b -> bakin w0 b (cs ++ [c]).
Proof.
  intros K. pose proof K as (H1 & H2 & H3 & H4 & H5 & _). unfold boxed_run. rewrite H2. destruct (e_thermal w0) eqn:Q.
  - destruct (ud_pam_of _ _) as [p|]; cbn [rbind]; [|discriminate]. destruct (box_parameters _ _ _) as [q|] eqn:P; cbn [rbind]; [|discriminate]. intros B.
    destruct (parameters_of w0 w cs c q K P) as [P1 P2].
    destruct (box_back (ud_thermal p) (ud_init p) ud_distinct w0 w cs (fst q) (snd q) b) as (hp & bp & _ & _ & _ & _ & (B1 & B2 & B3 & B4 & B5 & B6) & E); [rewrite Q; reflexivity|exact K|exact B|].
    unfold bakin. rewrite B1, B2, B3, B4, B5, B6. repeat (split; [first [assumption | congruence]|]). exact P2.
  - destruct (tl_pam_of _ _) as [p|]; cbn [rbind]; [|discriminate]. destruct (box_parameters _ _ _) as [q|] eqn:P; cbn [rbind]; [|discriminate]. intros B.
    destruct (parameters_of w0 w cs c q K P) as [P1 P2].
    destruct (box_back (tl_thermal p) (tl_init p) tl_distinct w0 w cs (fst q) (snd q) b) as (hp & bp & _ & _ & _ & _ & (B1 & B2 & B3 & B4 & B5 & B6) & E); [rewrite Q; reflexivity|exact K|exact B|].
    unfold bakin. rewrite B1, B2, B3, B4, B5, B6. repeat (split; [first [assumption | congruence]|]). exact P2.
Qed.
(** what a new instance is *)
Definition box_new (cfg : dict pyval) (w0 : boxed A) : Prop :=
  bakin w0 w0 [] /\ e_pams w0 = handler_init (e_env w0) (Some (driver_emiconc cfg)) /\
  forall k v, dget box_required k = Some v -> dget (e_carbon w0) k = Some v.
Lemma box_same cfg w0 w w' cs c cs' c' a : box_new cfg w0 -> bakin w0 w cs -> bakin w0 w' cs' -> Forall dictionaries (cs ++ [c]) -> Forall dictionaries (cs' ++ [c']) ->
  same_for_boxes (A := A) cs c cs' c' -> GO w c = Ok a -> exists b, GO w' c' = Ok b /\ same_results (e_results a) (e_results b).
Proof.
  intros (_ & EP & EC) K K' F F' [S1 S2 S3 S4] HA.
  assert (WE : opt_wf (Some (driver_emiconc cfg))) by apply driver_emiconc_wf.
  assert (FM : forall l, Forall dictionaries l -> Forall opt_wf (map cf_emiconc l) /\ Forall opt_wf (map cf_carbon l)).
  { intros l X. split; apply Forall_map; eapply Forall_impl; [|exact X| |exact X]; intros q Hq; apply Hq. }
  destruct (FM _ F) as [FE FC]. destruct (FM _ F') as [FE' FC'].
  destruct (box_pam_numbers (e_carbon w0) (map cf_carbon (cs ++ [c])) EC FC) as (p & BP & BN).
  destruct (box_pam_numbers (e_carbon w0) (map cf_carbon (cs' ++ [c'])) EC FC') as (p' & BP' & BN').
  pose proof (box_numbers_read _ _ p p' S4 BN BN') as RD.
  assert (HQ : exists q', box_parameters w' (cf_emiconc c') (cf_carbon c') = Ok q').
  { unfold box_parameters. pose proof K' as (E1 & _ & _ & _ & _ & _ & H7 & _). rewrite map_app in FE'. apply Forall_app in FE'. destruct FE' as [FE1 FE2]. inversion FE2 as [|? ? O _]; subst.
    destruct (handler_rerun_ok (e_env w') (e_pams w') (cf_emiconc c') O) as [d ->]; [|cbn [rbind]; eauto].
    rewrite EP in H7. refine (handler_reruns_inv _ _ _ _ FE1 _ H7). apply handler_init_inv. exact WE. }
  destruct HQ as [q' HQ].
  assert (HP : forall q, box_parameters w (cf_emiconc c) (cf_carbon c) = Ok q -> snd q = box_resets (e_carbon w0) (map cf_carbon (cs ++ [c])) /\ snd q' = box_resets (e_carbon w0) (map cf_carbon (cs' ++ [c'])) /\
    forall cl br, hpam_of number cl br (fst q) = hpam_of number cl br (fst q')).
  { intros q Q. destruct (parameters_of w0 w cs c q K Q) as [P1 P2]. destruct (parameters_of w0 w' cs' c' q' K' HQ) as [P1' P2']. split; [exact P2|]. split; [exact P2'|]. intros cl br.
    rewrite EP in P1, P1'. rewrite map_app in P1, P1', S3, FE, FE'. rewrite map_app in S3. cbn [map] in P1, P1', S3, FE, FE'. rewrite <- S2 in P1', S3, FE'.
    apply Forall_app in FE, FE'. destruct FE as [FE1 FE2], FE' as [FE1' _]. inversion FE2 as [|? ? O _]; subst.
    refine (handler_two number cl br _ _ _ _ _ _ _ WE FE1 FE1' O _ P1 P1'). cbn [spec_last_any].
    assert (J : dget (driver_emiconc cfg) "just_one" = None).
    { Transparent driver_emiconc. change (driver_emiconc cfg) with (fold_left emi_step (driver_caller_cfg cfg) (base_emiconc cfg)). rewrite emi_fold_get by reflexivity. reflexivity. }
    rewrite J. exact S3. }
  Opaque driver_emiconc.
  pose proof K as (_ & H2 & _). pose proof K' as (_ & H2' & _). revert HA. unfold boxed_run. rewrite H2, H2', HQ, <- S1. destruct (e_thermal w0) eqn:TH.
  - destruct (ud_pam_of _ _) as [tp|]; cbn [rbind]; [|discriminate]. destruct (box_parameters w _ _) as [q|]; cbn [rbind]; [|discriminate]. destruct (HP q eq_refl) as (Q1 & Q2 & Q3). intros B.
    destruct (box_back (ud_thermal tp) (ud_init tp) ud_distinct w0 w cs (fst q) (snd q) a) as (hp & bp & B1 & B2 & B3 & B4 & _); [rewrite TH; reflexivity|exact K|exact B|].
    rewrite Q1, BP in B2. injection B2 as <-. rewrite Q3 in B1. rewrite (run_read p p' _ _ _ _ _ _ _ _ RD) in B3, B4. rewrite <- Q2 in BP'.
    destruct (box_forth (ud_thermal tp) (ud_init tp) ud_distinct w0 w' cs' (fst q') (snd q') hp p') as (b & X1 & X2); [rewrite TH; reflexivity|assumption..|].
    exists b. split; [exact X1|]. intros k. rewrite (B4 k). symmetry. apply X2.
  - destruct (tl_pam_of _ _) as [tp|]; cbn [rbind]; [|discriminate]. destruct (box_parameters w _ _) as [q|]; cbn [rbind]; [|discriminate]. destruct (HP q eq_refl) as (Q1 & Q2 & Q3). intros B.
    destruct (box_back (tl_thermal tp) (tl_init tp) tl_distinct w0 w cs (fst q) (snd q) a) as (hp & bp & B1 & B2 & B3 & B4 & _); [rewrite TH; reflexivity|exact K|exact B|].
    rewrite Q1, BP in B2. injection B2 as <-. rewrite Q3 in B1. rewrite (run_read p p' _ _ _ _ _ _ _ _ RD) in B3, B4. rewrite <- Q2 in BP'.
    destruct (box_forth (tl_thermal tp) (tl_init tp) tl_distinct w0 w' cs' (fst q') (snd q') hp p') as (b & X1 & X2); [rewrite TH; reflexivity|assumption..|].
    exists b. split; [exact X1|]. intros k. rewrite (B4 k). symmetry. apply X2.
Qed.

(** ** A new instance *)
Variables (float_of : A -> pyfloat) (label_of : A -> Z).
Lemma box_build_data cfg x w0 : wf cfg -> x_forc x = None -> build_box number float_of cfg x = Ok w0 ->
  driver_thermal cfg = Ok (e_thermal w0) /\ instance_numbers cfg x (e_inst w0) /\ box_new cfg w0 /\ e_env w0 = env_of x /\ e_gas w0 = x_gas x /\
  let f := e_fixed w0 in
  f_conc f = x_conc x /\ f_nat_ch4 f = x_nat_ch4 x /\ f_nat_n2o f = x_nat_n2o x /\ f_pert f = x_perturb_forc x /\
  match x_perturb_em x with None => f_emis f = x_emis x | Some t => perturb_emissions t (x_emis x) = Ok (f_emis f) end /\
  make_cl_and_br_dictionaries (dkeys (x_gas x)) = Ok (f_cl f, f_br f) /\
  exists hp0, hpam_of number (f_cl f) (f_br f) (e_pams w0) = Ok hp0 /\ precalculate hp0 (x_gas x) (x_conc x) (f_emis f) (x_perturb_forc x) = Ok (f_pc f, f_erf f).
Proof.
  intros W XF. unfold build_box. destruct (driver_thermal cfg) as [th|]; cbn [rbind]; [|discriminate]. destruct (whole_at _ "nystart") as [y0|] eqn:Y0; cbn [rbind]; [|discriminate].
  destruct (whole_at _ "nyend") as [y1|] eqn:Y1; cbn [rbind]; [|discriminate].
  apply (fun z => whole_at_is _ _ _ _ z (driver_num cfg "nystart" (VInt 1750) W eq_refl eq_refl)) in Y0.
  apply (fun z => whole_at_is _ _ _ _ z (driver_num cfg "nyend" (VInt 2100) W eq_refl eq_refl)) in Y1. cbv zeta.
  destruct (match x_perturb_em x with None => _ | Some _ => _ end) as [emis|] eqn:PE; cbn [rbind]; [|discriminate].
  destruct (make_cl_and_br_dictionaries _) as [[cl br]|] eqn:CB; cbn [rbind]; [|discriminate]. cbn [fst snd]. destruct (hpam_of _ _ _ _) as [hp|] eqn:HP; cbn [rbind]; [|discriminate].
  destruct (precalculate _ _ _ _ _) as [[pc erf]|] eqn:PC; cbn [rbind]; [|discriminate]. destruct (fr_get _ _ _) as [st|] eqn:ST; cbn [rbind]; [|discriminate].
  destruct (handler_box _ _ _ _) as [c|] eqn:C; cbn [rbind]; [|discriminate]. intros X. apply Ok_inj in X. rewrite <- X. clear X.
  cbn [e_thermal e_inst e_fixed e_pams e_gas e_env e_carbon e_results f_conc f_nat_ch4 f_nat_n2o f_pert f_emis f_cl f_br f_pc f_erf fst snd]. split; [reflexivity|].
  split; [split; cbn [d_start d_end d_rf d_sun d_luc d_vn d_vs]; auto|]. split.
  { split; [|split; [reflexivity|]].
    - unfold bakin. cbn [e_thermal e_inst e_fixed e_pams e_gas e_env e_carbon e_results d_rf map handler_reruns box_resets]. repeat (split; [reflexivity|]). split; [apply no_run|]. auto.
    - intros k v B. cbn [e_carbon]. refine (handler_box_get _ _ _ _ k v _ C B).
      assert (K : In k (dkeys box_required)) by (apply dget_In_keys, dmem_true; eauto). cbn in K. repeat (destruct K as [<-|K]; [cbn in B; injection B as <-; reflexivity|]). contradiction. }
  do 6 (split; [reflexivity|]). split; [destruct (x_perturb_em x); [exact PE|injection PE as <-; reflexivity]|]. split; [reflexivity|]. exists hp. auto.
Qed.
Local Notation RUN m c := (model_run nan number m (cf_udm c) (cf_emiconc c) (cf_carbon c)).
Lemma boxes_after w0 cs m : bakin w0 w0 [] -> model_after nan number (Boxes w0) cs m -> exists w, m = Boxes w /\ bakin w0 w cs.
Proof.
  intros K H. induction H as [|cs m c m' H (w & -> & IH) E]; [eauto|]. cbn [model_run] in E. destruct (boxed_run _ _ _ _ _ _) as [v|] eqn:B; [|discriminate E].
  cbn [rbind] in E. injection E as <-. exists v. split; [reflexivity|]. exact (box_akin w0 w cs c v IH B).
Qed.
Lemma standard_after w0 cs m : model_after nan number (Standard w0) cs m -> exists w, m = Standard w /\ after_runs nan number w0 cs w.
Proof.
  intros H. induction H as [|cs m c m' H (w & -> & IH) E]; [exists w0; split; [reflexivity|constructor]|]. cbn [model_run] in E.
  destruct (whole_run _ _ _ _ _ _) as [v|] eqn:B; [|discriminate E]. cbn [rbind] in E. injection E as <-. exists v. split; [reflexivity|]. econstructor; eassumption.
Qed.
Lemma model_build_box cfg x m : x_forc x = None -> driver_carbon_class cfg = Ok BoxCarbon -> model_build number float_of cfg x = Ok m ->
  exists w0, m = Boxes w0 /\ build_box number float_of cfg x = Ok w0.
Proof. intros XF CC. unfold model_build. rewrite XF, CC. destruct (build_box _ _ _ _) as [w|]; [|discriminate]. intros X. injection X as <-. eauto. Qed.

Lemma c100_run cfg x m0 cs m c b : wf cfg -> Forall dictionaries (cs ++ [c]) -> x_forc x = None -> driver_carbon_class cfg = Ok BoxCarbon ->
  model_build number float_of cfg x = Ok m0 -> model_after nan number m0 cs m -> RUN m c = Ok b ->
  exists i sc bp cl, instance_numbers cfg x i /\ scenario_numbers number cfg x cs c sc /\ box_numbers number (map cf_carbon (cs ++ [c])) bp /\ driver_thermal cfg = Ok cl /\
  match cl with
  | TwoLayer => exists p, tl_numbers number (cf_udm c) p /\
      o_exn (box_coupled_run nan bp sc (tl_thermal p) i (x_gas x) (tl_init p) true true []) = None /\
      same_results (model_results b) (o_results (box_coupled_run nan bp sc (tl_thermal p) i (x_gas x) (tl_init p) true true []))
  | UpwellingDiffusion => exists p, ud_numbers number (cf_udm c) p /\
      o_exn (box_coupled_run nan bp sc (ud_thermal p) i (x_gas x) (ud_init p) true true []) = None /\
      same_results (model_results b) (o_results (box_coupled_run nan bp sc (ud_thermal p) i (x_gas x) (ud_init p) true true []))
  end.
Proof.
  intros W FD XF CC B AR R. destruct (model_build_box cfg x m0 XF CC B) as (w0 & -> & BB).
  destruct (box_build_data cfg x w0 W XF BB) as (TH & IN & NEW & EE & EG & D1 & D2 & D3 & D4 & D5 & D6 & hp0 & D7 & D8). cbv zeta in *.
  pose proof NEW as (K0 & EP & EC). destruct (boxes_after w0 cs m K0 AR) as (w & -> & K). cbn [model_run] in R.
  destruct (boxed_run _ _ _ _ _ _) as [v|] eqn:RV; [|discriminate R]. cbn [rbind] in R. injection R as <-. cbn [model_results].
  assert (FE : Forall opt_wf (map cf_emiconc cs)) by (apply Forall_app in FD; destruct FD as [FD _]; apply Forall_map; eapply Forall_impl; [|exact FD]; intros q Hq; apply Hq).
  assert (FC : Forall opt_wf (map cf_carbon (cs ++ [c]))) by (apply Forall_map; eapply Forall_impl; [|exact FD]; intros q Hq; apply Hq).
  assert (OC : dictionaries c) by (apply Forall_app in FD; destruct FD as [_ FD]; inversion FD; assumption). destruct OC as (O1 & O2 & _).
  destruct (box_pam_numbers (e_carbon w0) (map cf_carbon (cs ++ [c])) EC FC) as (bp & BP & BN).
  assert (SN : forall q hp, box_parameters w (cf_emiconc c) (cf_carbon c) = Ok q -> hpam_of number (f_cl (e_fixed w0)) (f_br (e_fixed w0)) (fst q) = Ok hp ->
    scenario_numbers number cfg x cs c (scenario_of hp (e_fixed w0)) /\ snd q = box_resets (e_carbon w0) (map cf_carbon (cs ++ [c]))).
  { intros q hp Q HP. destruct (parameters_of w0 w cs c q K Q) as [P1 P2]. split; [|exact P2].
    rewrite EP, map_app, EE in P1. cbn [map] in P1.
    destruct (handler_numbers_of number cfg (env_of x) (x_conc_run x) _ _ _ _ _ hp W FE O2 eq_refl P1 HP) as (HN & HC & HB).
    assert (H0 : nystart hp0 = nystart hp /\ nyend hp0 = nyend hp /\ emstart hp0 = emstart hp /\ conc_run hp0 = conc_run hp /\ cl_dict hp0 = cl_dict hp /\ br_dict hp0 = br_dict hp).
    { pose proof (hn_window _ _ _ _ _ _ _ HN) as (W1 & W2 & W3). pose proof (hn_conc _ _ _ _ _ _ _ HN) as W4. rewrite HC, HB, W4.
      apply (start_numbers number cfg (env_of x) (x_conc_run x) _ _ hp0 _ _ _ W eq_refl); [rewrite <- EE, <- EP; exact D7|assumption..]. }
    destruct H0 as (S1 & S2 & S3 & S4 & S5 & S6).
    split; unfold scenario_of; cbn [c_p c_conc c_nat_ch4 c_nat_n2o c_pert c_emis c_pc c_erf].
    - exact HN.
    - rewrite HC, HB. exact D6.
    - auto.
    - exact D5.
    - rewrite <- (precalculate_same hp0 hp) by assumption. exact D8. }
  pose proof K as (_ & H2 & _). revert RV. unfold boxed_run. rewrite H2. destruct (e_thermal w0) eqn:QT.
  - destruct (ud_pam_of number (cf_udm c)) as [p|] eqn:P; cbn [rbind]; [|discriminate]. destruct (box_parameters _ _ _) as [q|]; cbn [rbind]; [|discriminate]. intros H.
    destruct (box_back (ud_thermal p) (ud_init p) ud_distinct w0 w cs (fst q) (snd q) v) as (hp & bp' & B1 & B2 & B3 & B4 & _); [rewrite QT; reflexivity|exact K|exact H|].
    destruct (SN q hp eq_refl B1) as [S1 S2]. rewrite S2, BP in B2. injection B2 as <-. rewrite EG in B4.
    exists (e_inst w0), (scenario_of hp (e_fixed w0)), bp, UpwellingDiffusion. do 4 (split; [assumption|]). exists p. split; [exact (ud_numbers_of number _ p O1 P)|]. rewrite EG in B3. split; [exact B3|exact B4].
  - destruct (tl_pam_of number (cf_udm c)) as [p|] eqn:P; cbn [rbind]; [|discriminate]. destruct (box_parameters _ _ _) as [q|]; cbn [rbind]; [|discriminate]. intros H.
    destruct (box_back (tl_thermal p) (tl_init p) tl_distinct w0 w cs (fst q) (snd q) v) as (hp & bp' & B1 & B2 & B3 & B4 & _); [rewrite QT; reflexivity|exact K|exact H|].
    destruct (SN q hp eq_refl B1) as [S1 S2]. rewrite S2, BP in B2. injection B2 as <-. rewrite EG in B4.
    exists (e_inst w0), (scenario_of hp (e_fixed w0)), bp, TwoLayer. do 4 (split; [assumption|]). exists p. split; [exact (tl_numbers_of number _ p O1 P)|]. rewrite EG in B3. split; [exact B3|exact B4].
Qed.
Lemma c100_same cfg x m0 cs m c cs' m' c' a : wf cfg -> x_forc x = None -> driver_carbon_class cfg = Ok BoxCarbon -> model_build number float_of cfg x = Ok m0 ->
  Forall dictionaries (cs ++ [c]) -> Forall dictionaries (cs' ++ [c']) ->
  model_after nan number m0 cs m -> model_after nan number m0 cs' m' -> same_for_boxes (A := A) cs c cs' c' ->
  RUN m c = Ok a -> exists b, RUN m' c' = Ok b /\ same_results (model_results a) (model_results b).
Proof.
  intros W XF CC B F F' AR AR' S R. destruct (model_build_box cfg x m0 XF CC B) as (w0 & -> & BB).
  destruct (box_build_data cfg x w0 W XF BB) as (_ & _ & NEW & _). pose proof NEW as (K0 & _).
  destruct (boxes_after w0 cs m K0 AR) as (w & -> & K). destruct (boxes_after w0 cs' m' K0 AR') as (w' & -> & K'). cbn [model_run] in *.
  destruct (boxed_run _ _ w _ _ _) as [v|] eqn:RV; [|discriminate R]. cbn [rbind] in R. injection R as <-.
  destruct (box_same cfg w0 w w' cs c cs' c' v NEW K K' F F' S RV) as (b & HB & SR). rewrite HB. cbn [rbind]. exists (Boxes b). auto.
Qed.

(** ** Configurations that do not rely on earlier ones *)
Lemma last_any_app k l : forall v0 p, spec_last_any k v0 (l ++ [p]) = match given p k with Some v => Some v | None => spec_last_any k v0 l end.
Proof. induction l as [|q r IH]; intros v0 p; cbn [app spec_last_any]; [unfold given; destruct p; reflexivity | apply IH]. Qed.
Lemma last_any_none {C} (f : C -> option (dict pyval)) k l : (forall c, In c l -> given (f c) k = None) -> forall v0, spec_last_any k v0 (map f l) = v0.
Proof.
  induction l as [|c r IH]; intros H v0; [reflexivity|]. cbn [map spec_last_any]. rewrite IH by (intros y Hy; apply H; right; exact Hy).
  specialize (H c (or_introl eq_refl)). unfold given in H. destruct (f c) as [d|]; [rewrite H|]; reflexivity.
Qed.
Lemma contained_same cfgs hist c : box_contained (A := A) cfgs -> incl hist cfgs -> In c cfgs -> same_for_boxes (A := A) [] c hist c.
Proof.
  intros (_ & J & U) I Hc. split; [reflexivity|reflexivity| |].
  - rewrite !map_app. cbn [map app]. rewrite last_any_app. change [cf_emiconc c] with ([] ++ [cf_emiconc c]). rewrite last_any_app.
    destruct (given (cf_emiconc c) "just_one") as [v|] eqn:G; [reflexivity|].
    destruct (uniform_split _ cfgs hist c J I Hc) as [X|X]; [congruence|]. symmetry. apply (last_any_none cf_emiconc "just_one" hist X).
  - intros k d f K. specialize (U k d f K). rewrite !map_app. cbn [map app]. rewrite last_num_app. change [cf_carbon c] with ([] ++ [cf_carbon c]). rewrite last_num_app. cbn [spec_last_num].
    destruct (uniform_split _ cfgs hist c U I Hc) as [X|X].
    + unfold number_given in X. unfold num_or. destruct (given (cf_carbon c) k) as [v|]; [|congruence]. destruct (is_num v); [reflexivity|congruence].
    + rewrite (last_num_none cf_carbon k d hist X). reflexivity.
Qed.

(** ** The parallel wrapper *)
Lemma model_series_same y0 y1 (a b : model A) v u : same_results (model_results a) (model_results b) -> model_timeseries label_of y0 y1 a v u = model_timeseries label_of y0 y1 b v u.
Proof.
  intros S. unfold model_timeseries. destruct (whole_number y0); cbn [rbind]; [|reflexivity]. destruct (whole_number y1); cbn [rbind]; [|reflexivity].
  assert (G : forall y0 y1, get_variable_timeseries y0 y1 (model_results a) v u = get_variable_timeseries y0 y1 (model_results b) v u).
  { intros. unfold get_variable_timeseries, from_conc, from_em, from_forc, from_ohc, volc_forcing, sun_forcing, frame_at, array_at.
    destruct (dget variable_dict v), (dget carbon_cycle_outputs v); rewrite ?S; reflexivity. }
  rewrite G. reflexivity.
Qed.
Variables (inputs : dict pyval -> result (data A)) (writer : pyval -> pyval -> pyval -> result units).
Local Notation construct := (model_construct number float_of inputs).
Local Notation EXEC := (model_execute nan number float_of label_of inputs writer).
Lemma model_rows_same (w : wrapper units (model A)) a b ix vars : same_results (model_results a) (model_results b) ->
  variable_rows (model_timeseries label_of) (with_cscm w a) ix vars = variable_rows (model_timeseries label_of) (with_cscm w b) ix vars.
Proof.
  intros Hs. destruct w as [g st en cs sc mo]. unfold with_cscm. cbn [w_getter w_start w_end w_scen w_model].
  induction vars as [|v r IH]; [reflexivity|]. cbn [variable_rows w_start w_end w_cscm w_getter]. rewrite (model_series_same st en a b v g Hs).
  destruct (model_timeseries _ st en b v g) as [[[ys ts] u]|]; [|reflexivity]. cbn [rbind].
  destruct ys as [ys|]; [|exact IH]. destruct (String.eqb u "NoUnit"); [exact IH|]. destruct ix as [ix|]; [|reflexivity].
  rewrite IH. reflexivity.
Qed.
Lemma model_rows (w : wrapper units (model A)) cfgs rows vars : let m0 := w_cscm w in
  (forall hist m c a, incl hist cfgs -> In c cfgs -> model_after nan number m0 hist m -> RUN m0 c = Ok a -> exists b, RUN m c = Ok b /\ same_results (model_results a) (model_results b)) ->
  (forall c, In c cfgs -> exists a, RUN m0 c = Ok a /\ variable_rows (model_timeseries label_of) (with_cscm w a) (cf_index c) vars = Ok (rows c)) ->
  forall bs hist v, incl hist cfgs -> incl bs cfgs -> model_after nan number m0 hist v ->
  cfg_rows (model_run nan number) (model_timeseries label_of) (with_cscm w v) bs vars = Ok (flat_map rows bs).
Proof.
  intros m0 STEP Hrow. induction bs as [|c r IH]; intros hist v Hh Hb Hr; [reflexivity|]. cbn [cfg_rows flat_map].
  assert (Hc : In c cfgs) by (apply Hb; left; reflexivity).
  destruct (Hrow c Hc) as (a & Ha & Hv). destruct (STEP hist v c a Hh Hc Hr Ha) as (b & Hb1 & Hb3).
  change (w_cscm (with_cscm w v)) with v. rewrite Hb1. cbn [rbind]. change (with_cscm (with_cscm w v) b) with (with_cscm w b).
  rewrite <- (model_rows_same w a b (cf_index c) vars Hb3), Hv. cbn [rbind].
  rewrite (IH (hist ++ [c]) b); [reflexivity | | intros y Hy; apply Hb; right; exact Hy |].
  - intros y Hy. apply in_app_or in Hy. destruct Hy as [Hy|[<-|[]]]; [apply Hh, Hy | exact Hc].
  - econstructor; [exact Hr | exact Hb1].
Qed.
Lemma model_step sd x m0 cfgs : wf sd -> model_build number float_of sd x = Ok m0 ->
  match m0 with
  | Standard w => in_rf_run (q_params w) = false -> self_contained (q_params w) cfgs
  | Boxes _ => box_contained (A := A) cfgs
  end ->
  forall hist m c a, incl hist cfgs -> In c cfgs -> model_after nan number m0 hist m -> RUN m0 c = Ok a -> exists b, RUN m c = Ok b /\ same_results (model_results a) (model_results b).
Proof.
  intros W B HS hist m c a Hi Hc AR R. destruct m0 as [w0|w0].
  - assert (BB : build number float_of sd x = Ok w0).
    { unfold model_build in B. destruct (x_forc x); [|destruct (driver_carbon_class sd) as [[|]|]];
      repeat match type of B with rbind ?q _ = _ => destruct q; cbn [rbind] in B; [|discriminate B] end; try discriminate B; injection B as <-; reflexivity. }
    destruct (build_new number float_of sd x w0 BB) as [K New]. specialize (New W).
    destruct (standard_after w0 hist m AR) as (w & -> & AW). cbn [model_run] in *. destruct (whole_run nan number w0 _ _ _) as [v|] eqn:RV; [|discriminate R]. cbn [rbind] in R. injection R as <-.
    destruct (after_akin nan number w0 hist w K AW) as [KV PV]. pose proof (whole_params nan number _ _ _ RV) as Pa.
    destruct (runs_on (q_params w0) cfgs hist c (q_params w) (q_params v) New HS Hi Hc PV Pa) as [i1 H1].
    pose proof (history_free (q_params w0) cfgs hist c (q_params w) i1 (q_params v) New HS Hi Hc PV H1 Pa) as SP.
    destruct (whole_same nan number w0 w c i1 v KV RV H1 SP) as (b & Hb1 & _ & Hb3). rewrite Hb1. cbn [rbind]. exists (Standard b). auto.
  - assert (Q : x_forc x = None /\ driver_carbon_class sd = Ok BoxCarbon).
    { unfold model_build in B. destruct (x_forc x); [|destruct (driver_carbon_class sd) as [[|]|]]; auto;
      destruct (build number float_of sd x); cbn [rbind] in B; discriminate B. }
    destruct Q as [XF CC]. pose proof (proj1 HS) as HD.
    assert (F1 : Forall dictionaries ([] ++ [c])) by (constructor; [exact (proj1 (Forall_forall _ _) HD c Hc)|constructor]).
    assert (F2 : Forall dictionaries (hist ++ [c])).
    { apply Forall_app. split; [|exact F1]. apply Forall_forall. intros y Hy. exact (proj1 (Forall_forall _ _) HD y (Hi y Hy)). }
    exact (c100_same sd x (Boxes w0) [] (Boxes w0) c hist m c a W XF CC B F1 F2 (model_fresh nan number _) AR (contained_same cfgs hist c HS Hi Hc) R).
Qed.
Lemma c101 rows orders scens cfgs vars mw : scens <> [] -> cfgs <> [] -> (1 <= mw)%Z -> (forall s, In s scens -> wf s) ->
  (forall s m, In s scens -> construct (check_numeric_pamset window_default s) = Ok m ->
     match m with
     | Standard w => in_rf_run (q_params w) = false -> self_contained (q_params w) cfgs
     | Boxes _ => box_contained (A := A) cfgs
     end) ->
  (forall s c, In s scens -> In c cfgs -> EXEC {| j_cfgs := [c]; j_vars := vars; j_scen := s |} = Ok (rows s c)) ->
  run_ciceroscm_parallel EXEC orders scens cfgs vars mw = Ok (flat_map (fun s => flat_map (rows s) cfgs) scens).
Proof.
  intros Hs Hc Hm Hwf Hnew Hone. apply (c64_general _ rows); try assumption.
  intros s bs Hin Hbs Hi. unfold model_execute, execute_run. cbn [j_scen j_cfgs j_vars].
  set (sd := check_numeric_pamset window_default s). specialize (Hnew s). fold sd in Hnew.
  assert (Hw : exists w, wrapper_init construct writer sd = Ok w).
  { destruct bs as [|c r]; [congruence|]. specialize (Hone s c Hin (Hi c (or_introl eq_refl))). unfold model_execute, execute_run in Hone.
    cbn [j_scen] in Hone. fold sd in Hone. destruct (wrapper_init construct writer sd); [eauto | discriminate]. }
  destruct Hw as [w Hw]. rewrite Hw. cbn [rbind].
  assert (Hcon : construct sd = Ok (w_cscm w)).
  { unfold wrapper_init in Hw. destruct (item_of sd "nystart"); [|discriminate]. cbn [rbind] in Hw.
    destruct (item_of sd "nyend"); [|discriminate]. cbn [rbind] in Hw.
    destruct (if dmem sd "gaspam_file" then _ else _); [|discriminate]. cbn [rbind] in Hw.
    destruct (writer _ _ _); [|discriminate]. cbn [rbind] in Hw. destruct (construct sd); [|discriminate]. cbn [rbind] in Hw.
    destruct (item_of sd "scenname"); [|discriminate]. cbn [rbind] in Hw. injection Hw as <-. reflexivity. }
  pose proof (Hnew (w_cscm w) Hin Hcon) as Hself.
  assert (Wsd : wf sd) by (apply check_numeric_wf, Hwf, Hin).
  unfold model_construct in Hcon. destruct (inputs sd) as [x|]; cbn [rbind] in Hcon; [|discriminate].
  pose proof (model_step sd x (w_cscm w) cfgs Wsd Hcon Hself) as STEP.
  assert (Hrow : forall c, In c cfgs -> rows s c <> [] /\
     exists a, RUN (w_cscm w) c = Ok a /\ variable_rows (model_timeseries label_of) (with_cscm w a) (cf_index c) vars = Ok (rows s c)).
  { intros c Hcin. specialize (Hone s c Hin Hcin). unfold model_execute, execute_run in Hone. cbn [j_scen j_cfgs j_vars] in Hone. fold sd in Hone.
    rewrite Hw in Hone. cbn [rbind] in Hone. unfold run_over_cfgs in Hone. cbn [cfg_rows] in Hone.
    destruct (RUN (w_cscm w) c) as [j|]; [|discriminate]. cbn [rbind] in Hone.
    destruct (variable_rows _ (with_cscm w j) (cf_index c) vars) as [rs|] eqn:E; [|discriminate]. cbn [rbind] in Hone.
    rewrite app_nil_r in Hone. destruct rs as [|y rs]; [discriminate|]. injection Hone as Hone. rewrite <- Hone.
    split; [discriminate|]. exists j. auto. }
  unfold run_over_cfgs.
  assert (Ew : w = with_cscm w (w_cscm w)) by (destruct w; reflexivity).
  rewrite Ew at 1.
  rewrite (model_rows w cfgs (rows s) vars STEP (fun c H => proj2 (Hrow c H)) bs [] (w_cscm w)).
  - cbn [rbind]. destruct bs as [|c r]; [congruence|]. cbn [flat_map].
    destruct (Hrow c (Hi c (or_introl eq_refl))) as [Hne _]. destruct (rows s c); [congruence | reflexivity].
  - intros y [].
  - exact Hi.
  - constructor.
Qed.
End Boxes.
