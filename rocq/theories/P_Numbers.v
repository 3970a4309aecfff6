(** * P_Numbers: proofs about the numbers of a run (C99) *)
From Verif Require Import PyBase PyBaseFacts Num M_Utils M_Flat M_Pams M_Gas M_Forcing M_RFuns M_Carbon M_TwoLayer M_UDM M_Driver M_Results M_Names M_BoxRun M_Parallel M_Whole
  Spec_Driver Spec_Pams Spec_Parallel Spec_Rerun Spec_Whole Spec_Numbers P_Pams P_Flat P_CarbonPams P_PamsDefaults P_PamsMain P_Parallel P_Parallel2 P_Parallel3 P_Driver P_Driver2 P_Driver3 P_Rerun P_Rerun2 P_Whole.

Lemma num_or_is p k d : is_num d = true -> exists x, num_of (num_or p k d) = Some x.
Proof. intros H. apply is_num_num, num_or_num, H. Qed.

Section Numbers.
Context {A : Type} {N : Num A}.
Variable number : pyfloat -> A.
Lemma num_at_Ok d k a : num_at number d k = Ok a -> exists v, dget d k = Some v /\ stands_for number v a.
Proof.
  unfold num_at, as_number. destruct (dget d k) as [v|]; [|discriminate]. destruct (num_of v) as [x|] eqn:X; [|discriminate]. intros H. injection H as <-.
  exists v. split; [reflexivity|]. exists x. auto.
Qed.
Lemma whole_at_Ok d k z : whole_at d k = Ok z -> exists v, dget d k = Some v /\ whole_number v = Ok z.
Proof. unfold whole_at. destruct (dget d k) as [v|]; [|discriminate]. eauto. Qed.

Lemma num_at_is d k a v : num_at number d k = Ok a -> dget d k = Some v -> stands_for number v a.
Proof. intros H D. apply num_at_Ok in H. destruct H as (v' & D' & S). rewrite D in D'. injection D' as <-. exact S. Qed.
Lemma whole_at_is d k z v : whole_at d k = Ok z -> dget d k = Some v -> whole_number v = Ok z.
Proof. unfold whole_at. intros H D. rewrite D in H. exact H. Qed.

(** ** Oceans *)
Lemma thermal_get req udm k d : wf req -> opt_wf udm -> dget req k = Some d -> dget (thermal_pamset req udm) k = Some (num_or udm k d).
Proof.
  intros W O D. unfold thermal_pamset. rewrite cut_and_check_get; [|exact W|destruct udm; [exact O|apply wf_nil]].
  unfold spec_completed. rewrite D. unfold num_or, given. destruct udm as [u|]; [destruct (dget u k)|]; reflexivity.
Qed.
Opaque thermal_pamset.
Ltac steps H := repeat (match type of H with rbind ?x _ = _ => let E := fresh "E" in destruct x eqn:E; cbn [rbind] in H; [|discriminate H] end).
Ltac places I := cbn in I; repeat (destruct I as [I|I]; [inversion I; subst; clear I|]); [..|contradiction].
Lemma tl_numbers_of udm p : opt_wf udm -> tl_pam_of number udm = Ok p -> tl_numbers number udm p.
Proof.
  intros O H. unfold tl_pam_of in H. cbv zeta in H. steps H. injection H as <-.
  assert (W : wf tl_required) by (apply wf_lit; reflexivity).
  intros k d f I. places I;
  match goal with E : num_at _ _ ?k = Ok ?a |- stands_for _ (num_or _ ?k _) _ =>
    exact (num_at_is _ _ _ _ E (thermal_get _ _ k _ W O eq_refl)) end.
Qed.
Lemma ud_numbers_of udm p : opt_wf udm -> ud_pam_of number udm = Ok p -> ud_numbers number udm p.
Proof.
  intros O H. unfold ud_pam_of in H. cbv zeta in H. steps H. injection H as <-.
  assert (W : wf ud_required) by (apply wf_lit; reflexivity).
  split.
  - intros k d f I. places I;
    match goal with E : num_at _ _ ?k = Ok ?a |- stands_for _ (num_or _ ?k _) _ =>
      exact (num_at_is _ _ _ _ E (thermal_get _ _ k _ W O eq_refl)) end.
  - match goal with E : whole_at _ "lm" = Ok ?z |- _ => exists z; split; [exact (whole_at_is _ _ _ _ E (thermal_get _ _ "lm" _ W O eq_refl))|reflexivity] end.
  - match goal with E : whole_at _ "ldtime" = Ok ?z |- _ => exists z; split; [exact (whole_at_is _ _ _ _ E (thermal_get _ _ "ldtime" _ W O eq_refl))|reflexivity] end.
Qed.
Lemma tl_total udm : opt_wf udm -> exists p, tl_pam_of number udm = Ok p.
Proof.
  intros O. assert (W : wf tl_required) by (apply wf_lit; reflexivity).
  assert (X : forall k d, dget tl_required k = Some d -> is_num d = true -> exists a, num_at number (thermal_pamset tl_required udm) k = Ok a).
  { intros k d D I. unfold num_at, as_number. rewrite (thermal_get _ _ k d W O D). destruct (num_or_is udm k d I) as [x ->]. eauto. }
  unfold tl_pam_of. cbv zeta.
  repeat match goal with |- exists p, rbind (num_at _ _ ?k) _ = _ => let a := fresh "a" in destruct (X k _ eq_refl eq_refl) as [a ->]; cbn [rbind] end. eauto.
Qed.

(** ** Handler *)
Transparent driver_emiconc.
Lemma driver_num cfg k d : wf cfg -> dget driver_required k = Some d -> is_num d = true -> dget (driver_cfg cfg) k = Some (num_or (Some cfg) k d).
Proof.
  intros W D _. unfold driver_cfg. rewrite cut_and_check_get; [|apply wf_lit; reflexivity|exact W]. unfold spec_completed. rewrite D.
  unfold num_or, given. destruct (dget cfg k); reflexivity.
Qed.
Lemma emiconc_num cfg k d : wf cfg -> In k ["idtm"; "nystart"; "nyend"; "emstart"] -> dget driver_required k = Some d -> is_num d = true ->
  dget (driver_emiconc cfg) k = Some (num_or (Some cfg) k d).
Proof.
  intros W I D ND. change (driver_emiconc cfg) with (fold_left emi_step (driver_caller_cfg cfg) (base_emiconc cfg)).
  pose proof (driver_num cfg k d W D ND) as Q.
  rewrite emi_fold_get by (cbn in I; repeat (destruct I as [<-|I]; [reflexivity|]); contradiction).
  unfold base_emiconc, dget_def. cbn in I. repeat (destruct I as [<-|I]; [cbn [dget String.eqb Ascii.eqb Bool.eqb]; rewrite Q; reflexivity|]). contradiction.
Qed.
Opaque driver_emiconc.
Lemma num_or_same p q k d d' : is_num d = true -> dget q k = Some (num_or p k d) -> num_or (Some q) k d' = num_or p k d.
Proof. intros I H. unfold num_or at 1, given. rewrite H, (num_or_num p k d I). reflexivity. Qed.
Lemma window_whole cfg env hist d k dflt z : wf cfg -> Forall opt_wf hist -> handler_reruns env (handler_init env (Some (driver_emiconc cfg))) hist = Ok d ->
  In k ["idtm"; "nystart"; "nyend"; "emstart"] -> dget driver_required k = Some dflt -> is_num dflt = true -> dget handler_required k = Some dflt ->
  whole_at d k = Ok z -> whole_number (num_or (Some cfg) k dflt) = Ok z.
Proof.
  intros W F H I D ND HD Z0. assert (WE : opt_wf (Some (driver_emiconc cfg))) by apply driver_emiconc_wf.
  destruct (c04 env (Some (driver_emiconc cfg)) hist WE F) as (d' & H' & Q & _). rewrite H in H'. injection H' as <-.
  destruct (Q k I) as (v & u & U & V & E).
  rewrite handler_init_get in U by (intros ->; cbn in I; repeat (destruct I as [I|I]; [discriminate I|]); contradiction).
  rewrite (check_pamset_required _ k dflt WE HD) in U. rewrite (num_or_same (Some cfg) (driver_emiconc cfg) k dflt dflt ND (emiconc_num cfg k dflt W I D ND)) in U.
  injection U as <-. rewrite <- (whole_at_is _ _ _ _ Z0 V). destruct E as [->|E]; [reflexivity|]. symmetry. apply eqb_whole, E.
Qed.
Lemma handler_numbers_of cfg env conc hist last d cl br hp : wf cfg -> Forall opt_wf hist -> opt_wf last -> env_conc_run env = VBool conc ->
  handler_reruns env (handler_init env (Some (driver_emiconc cfg))) (hist ++ [last]) = Ok d -> hpam_of number cl br d = Ok hp ->
  handler_numbers number cfg (env_gases env) conc hist last hp /\ cl_dict hp = cl /\ br_dict hp = br.
Proof.
  intros W F O EC H P. assert (WE : opt_wf (Some (driver_emiconc cfg))) by apply driver_emiconc_wf.
  assert (F' : Forall opt_wf (hist ++ [last])) by (apply Forall_app; split; [exact F | constructor; [exact O | constructor]]).
  destruct (c05 env (Some (driver_emiconc cfg)) hist last WE F O) as (d' & H' & Q1 & Q2 & Q3). rewrite H in H'. injection H' as <-.
  destruct (c04 env (Some (driver_emiconc cfg)) (hist ++ [last]) WE F') as (d' & H' & _ & QC). rewrite H in H'. injection H' as <-. rewrite EC in QC.
  pose proof (fun k => window_whole cfg env (hist ++ [last]) d k) as WW.
  unfold hpam_of in P. rewrite Q2, QC, Q3 in P. steps P.
  injection P as <-. split; [|split; reflexivity]. split.
  - intros k dd f I. places I;
    match goal with E : num_at _ d ?k = Ok ?a |- stands_for _ (num_or _ ?k ?dd) _ => exact (num_at_is _ _ _ _ E (Q1 k dd ltac:(cbn; tauto) eq_refl)) end.
  - intros aer k dd f I.
    assert (R : forall a k, In (a, k) [("SO2", "qdirso2"); ("BC", "qbc"); ("OC", "qoc")] ->
      dget d k = Some (if existsb (String.prefix (a ++ "_")%string) (env_gases env) then flt 0 1 else num_or last k (match dget handler_required k with Some x => x | None => VNone end))).
    { intros a' k' I'. destruct (c50 env (Some (driver_emiconc cfg)) hist last a' k' WE F O I') as [_ (d' & H' & X)]. rewrite H in H'. injection H' as <-. exact X. }
    places I.
    + match goal with E : num_at _ d "qdirso2" = Ok ?a |- _ => exact (num_at_is _ _ _ _ E (R "SO2" "qdirso2" ltac:(cbn; tauto))) end.
    + match goal with E : num_at _ d "qbc" = Ok ?a |- _ => exact (num_at_is _ _ _ _ E (R "BC" "qbc" ltac:(cbn; tauto))) end.
    + match goal with E : num_at _ d "qoc" = Ok ?a |- _ => exact (num_at_is _ _ _ _ E (R "OC" "qoc" ltac:(cbn; tauto))) end.
  - cbn [nystart nyend emstart]. split; [|split].
    + match goal with E : whole_at d "nystart" = Ok ?z |- _ => exact (WW "nystart" (VInt 1750) z W F' H ltac:(cbn; tauto) eq_refl eq_refl eq_refl E) end.
    + match goal with E : whole_at d "nyend" = Ok ?z |- _ => exact (WW "nyend" (VInt 2100) z W F' H ltac:(cbn; tauto) eq_refl eq_refl eq_refl E) end.
    + match goal with E : whole_at d "emstart" = Ok ?z |- _ => exact (WW "emstart" (VInt 1850) z W F' H ltac:(cbn; tauto) eq_refl eq_refl eq_refl E) end.
  - cbn [ref_yr]. match goal with E : whole_at d "ref_yr" = Ok ?z |- _ => exact (whole_at_is _ _ _ _ E (Q1 "ref_yr" (VInt 2010) ltac:(cbn; tauto) eq_refl)) end.
  - cbn [lifetime_mode]. destruct (given last "lifetime_mode"); reflexivity.
  - cbn [just_one]. f_equal. cbn [app spec_last_any].
    assert (J : dget (driver_emiconc cfg) "just_one" = None).
    { Transparent driver_emiconc. change (driver_emiconc cfg) with (fold_left emi_step (driver_caller_cfg cfg) (base_emiconc cfg)). rewrite emi_fold_get by reflexivity. reflexivity. }
    rewrite J. reflexivity.
  - reflexivity.
Qed.
Opaque driver_emiconc.

(** ** Carbon cycle *)
Definition handler_dict env (p : option (dict pyval)) : dict pyval :=
  let hp := dset (check_pamset p) "conc_run" (env_conc_run env) in
  let hp := match env_forc_pert env with Some o => dset hp "forc_pert" o | None => hp end in
  dset (dset hp "cl_dict" (env_cl env)) "br_dict" (env_br env).
Lemma handler_dict_get env p k : In k ["idtm"; "nystart"; "nyend"] -> dget (handler_dict env p) k = dget (check_pamset p) k.
Proof.
  intros I. assert (X : k <> "conc_run" /\ k <> "forc_pert" /\ k <> "cl_dict" /\ k <> "br_dict").
  { cbn in I. repeat (destruct I as [<-|I]; [repeat split; discriminate|]). contradiction. }
  unfold handler_dict. rewrite !dget_dset_neq by (intros E; symmetry in E; tauto). destruct (env_forc_pert env); rewrite !dget_dset_neq by (intros E; symmetry in E; tauto); reflexivity.
Qed.
Lemma handler_dict_wf env p : wf (handler_dict env p).
Proof. unfold handler_dict. do 2 apply wf_dset. destruct (env_forc_pert env); [apply wf_dset|]; apply wf_dset, check_pamset_wf. Qed.
Transparent carbon_cycle_init_pamsets.
Lemma init_pamsets_are emi p1 req used win cc : carbon_cycle_init_pamsets emi (Some p1) req (Some used) = Ok (win, cc) ->
  win = cut_and_check_pamset window_required emi [] /\ cc = cut_and_check_pamset req p1 used.
Proof.
  unfold carbon_cycle_init_pamsets. generalize (cut_and_check_pamset req p1 used). intros d. cbv zeta.
  destruct (take_out_missing_spec d) as [T|[T _]]; rewrite T; cbn [rbind]; intros H; [|discriminate]. injection H as <- <-. auto.
Qed.
Opaque carbon_cycle_init_pamsets.
Lemma carbon_init_split emi pc c : carbon_init emi (Some pc) = Ok c -> exists p1 cc win c1,
  process_flat_carbon_parameters pc = Ok p1 /\ cc = cut_and_check_pamset carbon_required p1 carbon_used /\ win = cut_and_check_pamset window_required emi [] /\
  carbon_reset {| c_pam := dset (dupdate win cc) "years_tot" (years_tot_of win); c_x0 := None; c_rs := None; c_rb := None |} (Some cc) = Ok c1 /\ c_pam c = c_pam c1.
Proof.
  intros H. unfold carbon_init in H. destruct (process_flat_carbon_parameters pc) as [p1|] eqn:F; [|discriminate]. cbn [rbind] in H.
  destruct (carbon_cycle_init_pamsets emi (Some p1) carbon_required (Some carbon_used)) as [[win cc]|] eqn:Q; [|discriminate]. cbn [rbind] in H.
  apply init_pamsets_are in Q. destruct Q as [Q1 Q2].
  destruct (carbon_reset _ (Some cc)) as [c1|] eqn:R; [|discriminate]. cbn [rbind] in H. apply Ok_inj in H. exists p1, cc, win, c1.
  split; [reflexivity|]. split; [exact Q2|]. split; [exact Q1|]. split; [exact R|]. rewrite <- H. reflexivity.
Qed.
Lemma not_carbon_key k : In k ["idtm"; "years_tot"] -> ~ In k numeric_keys /\ k <> "rs_function" /\ k <> "rb_function".
Proof.
  intros I. cbn in I. destruct I as [<-|[<-|[]]]; (split; [|split; discriminate]); intros X; apply smem_In in X; discriminate X.
Qed.
Lemma not_completed p1 k : wf p1 -> In k ["idtm"; "years_tot"] -> dget (cut_and_check_pamset carbon_required p1 carbon_used) k = None.
Proof.
  intros W I. rewrite cut_and_check_get; [|apply carbon_required_wf|exact W]. unfold spec_completed.
  assert (R : dget carbon_required k = None) by (cbn in I; destruct I as [<-|[<-|[]]]; reflexivity).
  assert (U : dmem carbon_used k = false) by (cbn in I; destruct I as [<-|[<-|[]]]; reflexivity).
  rewrite R, U. destruct (dget p1 k); reflexivity.
Qed.
Lemma reset_window win cc v c1 : wf cc -> (forall k, In k ["idtm"; "years_tot"] -> dget cc k = None) ->
  carbon_reset {| c_pam := dset (dupdate win cc) "years_tot" v; c_x0 := None; c_rs := None; c_rb := None |} (Some cc) = Ok c1 ->
  dget (c_pam c1) "idtm" = dget win "idtm" /\ dget (c_pam c1) "years_tot" = Some v.
Proof.
  intros W NC R.
  assert (K : forall k, In k ["idtm"; "years_tot"] -> dget (c_pam c1) k = dget (dset (dupdate win cc) "years_tot" v) k).
  { intros k I. destruct (not_carbon_key k I) as (K1 & K2 & K3). exact (carbon_reset_other _ (Some cc) c1 k W R K1 K2 K3). }
  rewrite !K by (cbn; tauto). split; [|apply dget_dset_eq]. rewrite dget_dset_neq by discriminate. rewrite dget_dupdate by exact W.
  rewrite (NC "idtm") by (cbn; tauto). reflexivity.
Qed.
Lemma carbon_init_window emi pc c : wf pc -> carbon_init emi (Some pc) = Ok c ->
  dget (c_pam c) "idtm" = dget (cut_and_check_pamset window_required emi []) "idtm" /\
  dget (c_pam c) "years_tot" = Some (years_tot_of (cut_and_check_pamset window_required emi [])).
Proof.
  intros WP H. destruct (carbon_init_split emi pc c H) as (p1 & cc & win & c1 & F & CC & WN & R & E). rewrite E, <- WN.
  apply (reset_window win cc _ c1); [rewrite CC; apply cut_and_check_wf| |exact R].
  intros k I. rewrite CC. apply not_completed; [exact (flat_wf _ _ WP F)|exact I].
Qed.
Lemma window_get hp k d : wf hp -> dget window_required k = Some d -> dget (cut_and_check_pamset window_required hp []) k = Some (num_or (Some hp) k d).
Proof.
  intros W D. rewrite cut_and_check_get; [|apply wf_lit; reflexivity|exact W]. unfold spec_completed. rewrite D. unfold num_or, given. destruct (dget hp k); reflexivity.
Qed.
Opaque carbon_init cut_and_check_pamset check_pamset.
Lemma whole_of_int z w : whole_number (VInt z) = Ok w -> w = z.
Proof.
  unfold whole_number. cbn [num_of]. cbv zeta.
  assert (QR : Qred (inject_Z z) = inject_Z z).
  { unfold inject_Z, Qred. pose proof (Z.ggcd_gcd z 1) as G1. pose proof (Z.ggcd_correct_divisors z 1) as G2.
    destruct (Z.ggcd z 1) as [g [aa bb]]. cbn [fst] in G1. rewrite Z.gcd_1_r in G1. subst g. destruct G2 as [G2 G3]. rewrite Z.mul_1_l in G2, G3. subst aa bb. reflexivity. }
  rewrite QR. cbn. congruence.
Qed.
Lemma driver_carbon_start env cfg start c : wf cfg -> is_num start = true -> driver_carbon env cfg start = Ok c ->
  (forall k d, dget carbon_required k = Some d -> k <> "preindustrial_co2_conc" -> dget (c_pam c) k = Some d) /\
  dget (c_pam c) "preindustrial_co2_conc" = Some start /\
  dget (c_pam c) "idtm" = Some (num_or (Some cfg) "idtm" (VInt 24)) /\
  dget (c_pam c) "years_tot" = Some (match num_or (Some cfg) "nyend" (VInt 2100), num_or (Some cfg) "nystart" (VInt 1750) with VInt a, VInt b => VInt (a - b + 1) | _, _ => VNone end).
Proof.
  intros W NS H. assert (P : dget (c_pam c) "preindustrial_co2_conc" = Some start).
  { unfold driver_carbon in H. rewrite (handler_carbon_num env _ None start c (wf_nil) H), NS. reflexivity. }
  unfold driver_carbon, handler_carbon in H. set (pc := dset [] "preindustrial_co2_conc" start) in *. fold (handler_dict env (Some (driver_emiconc cfg))) in H.
  set (hp := handler_dict env (Some (driver_emiconc cfg))) in *.
  destruct (carbon_init hp (Some pc)) as [c1|] eqn:E; [|discriminate]. cbn [rbind] in H.
  assert (Wd : wf pc) by (apply wf_dset, wf_nil). assert (Wh : wf hp) by apply handler_dict_wf.
  destruct (carbon_init_window hp pc c1 Wd E) as [I1 I2].
  assert (G : forall k d, In k ["idtm"; "nystart"; "nyend"] -> dget driver_required k = Some d -> dget handler_required k = Some d -> dget window_required k = Some d -> is_num d = true ->
     dget (cut_and_check_pamset window_required hp []) k = Some (num_or (Some cfg) k d)).
  { intros k d I D1 D2 D3 ND. assert (I4 : In k ["idtm"; "nystart"; "nyend"; "emstart"]) by (cbn in I |- *; tauto).
    rewrite cut_and_check_get; [|apply wf_lit; reflexivity|exact Wh]. unfold spec_completed. rewrite D3. unfold hp. rewrite handler_dict_get by exact I.
    rewrite (check_pamset_required (Some (driver_emiconc cfg)) k d (driver_emiconc_wf cfg) D2).
    rewrite (num_or_same (Some cfg) (driver_emiconc cfg) k d d ND (emiconc_num cfg k d W I4 D1 ND)). rewrite (num_or_num _ _ _ ND). reflexivity. }
  assert (Kx : forall k, In k ["idtm"; "years_tot"] -> dget (c_pam c) k = dget (c_pam c1) k).
  { intros k I. refine (carbon_reset_other _ (Some pc) c k Wd H _ _ _); [|intros ->; cbn in I; repeat (destruct I as [I|I]; [discriminate I|]); contradiction..].
    intros X. apply numeric_keys_spec in X. cbn in X, I. destruct I as [<-|[<-|[]]]; repeat (destruct X as [X|X]; [discriminate X|]); contradiction. }
  split; [|split; [exact P|split]].
  - intros k d D NP. assert (Hk : In k numeric_keys) by (apply dget_In_keys, dmem_true; eauto).
    assert (NG : dget pc k = None) by (unfold pc; rewrite dget_dset_neq; [reflexivity|congruence]).
    rewrite (carbon_reset_num c1 pc c k Wd H Hk). unfold spec_updated. rewrite NG, (carbon_init_num hp pc c1 k d Wd E D). unfold num_or, given. rewrite NG. reflexivity.
  - rewrite Kx, I1 by (cbn; tauto). apply G; [cbn; tauto|reflexivity..].
  - rewrite Kx, I2 by (cbn; tauto). f_equal. unfold years_tot_of.
    rewrite (G "nyend" (VInt 2100)), (G "nystart" (VInt 1750)) by (try reflexivity; cbn; tauto). reflexivity.
Qed.
Lemma decay_of_is v f : decay_of number v = Ok f -> decays number v f.
Proof.
  assert (L : forall l l', mapM (as_number number) l = Ok l' -> Forall2 (stands_for number) l l').
  { induction l as [|x r IH]; intros l' H; cbn [mapM] in H.
    - injection H as <-. constructor.
    - destruct (as_number number x) as [a|] eqn:X; cbn [rbind] in H; [|discriminate]. destruct (mapM _ r) as [r'|]; cbn [rbind] in H; [|discriminate]. injection H as <-.
      constructor; [|apply IH; reflexivity]. unfold as_number in X. destruct (num_of x) as [y|] eqn:Y; [|discriminate]. injection X as <-. exists y. auto. }
  unfold decay_of, decays. destruct v as [v|]; [|intros H; injection H as <-; exact I]. destruct v; try discriminate.
  destruct (mapM _ coeffs) as [c|] eqn:C; cbn [rbind]; [|discriminate]. destruct (mapM _ tims) as [t|] eqn:T; cbn [rbind]; [|discriminate]. intros H. injection H as <-.
  split; apply L; assumption.
Qed.
Lemma last_decay_is k hist : forall c c' v, Forall opt_wf hist -> carbon_resets c hist = Ok c' ->
  spec_last_fun k v hist = fold_left (fun v p => match decay_given p k with Some d => Some d | None => v end) hist v.
Proof.
  induction hist as [|p r IH]; intros c c' v F H; [reflexivity|]. cbn [carbon_resets] in H. inversion F as [|? ? Hp Hr]; subst.
  destruct (carbon_reset c p) as [c1|] eqn:E; [|discriminate]. cbn [rbind] in H. cbn [spec_last_fun fold_left].
  rewrite (fun_of_given p k c c1 Hp E). exact (IH c1 c' _ Hr H).
Qed.
Lemma carbon_numbers_of cfg env start hist last c0 c cp x0 : wf cfg -> Forall opt_wf hist -> opt_wf last -> is_num start = true ->
  driver_carbon env cfg start = Ok c0 -> carbon_resets c0 (hist ++ [last]) = Ok c -> cc_pam_of number c = Ok (cp, x0) ->
  carbon_numbers number cfg start hist last cp x0.
Proof.
  intros W F O NS H0 H P.
  assert (F' : Forall opt_wf (hist ++ [last])) by (apply Forall_app; split; [exact F | constructor; [exact O | constructor]]).
  destruct (driver_carbon_start env cfg start c0 W NS H0) as (S1 & S2 & S3 & S4).
  destruct (driver_carbon_ready env cfg start c0 H0) as (_ & RS & RB). destruct (driver_carbon_builtin env cfg start c0 H0) as [BS BB].
  destruct (c06_sticky c0 (hist ++ [last]) c F' H) as [Q1 Q2]. specialize (Q2 RS RB). destruct Q2 as [Q2 Q3]. rewrite BS in Q2. rewrite BB in Q3.
  rewrite (last_decay_is "rs_function" _ c0 c None F' H) in Q2. rewrite (last_decay_is "rb_function" _ c0 c None F' H) in Q3. fold (last_decay "rs_function" (hist ++ [last])) in Q2. fold (last_decay "rb_function" (hist ++ [last])) in Q3.
  assert (X0 : c_x0 c = Some (spec_last_num "preindustrial_co2_conc" start hist)).
  { rewrite carbon_resets_snoc in H. destruct (carbon_resets c0 hist) as [c1|] eqn:E; [|discriminate]. cbn [rbind] in H. apply carbon_reset_x0 in H. rewrite H.
    destruct (c06_sticky c0 hist c1 F E) as [G _]. apply G; [cbn; tauto|exact S2]. }
  assert (OTH : forall k, In k ["idtm"; "years_tot"] -> dget (c_pam c) k = dget (c_pam c0) k).
  { intros k I. refine (carbon_resets_other _ k _ _ _ c0 c F' H); [|intros ->; cbn in I; repeat (destruct I as [I|I]; [discriminate I|]); contradiction..].
    intros X. apply numeric_keys_spec in X. cbn in X, I. destruct I as [<-|[<-|[]]]; repeat (destruct X as [X|X]; [discriminate X|]); contradiction. }
  assert (Q : forall k d, dget carbon_required k = Some d -> k <> "preindustrial_co2_conc" -> dget (c_pam c) k = Some (spec_last_num k d (hist ++ [last]))).
  { intros k d D NP. apply Q1; [apply dget_In_keys, dmem_true; eauto|]. apply S1; assumption. }
  assert (QP : dget (c_pam c) "preindustrial_co2_conc" = Some (spec_last_num "preindustrial_co2_conc" start (hist ++ [last]))) by (apply Q1; [cbn; tauto|exact S2]).
  unfold cc_pam_of in P. cbv zeta in P. rewrite X0 in P. steps P.
  destruct (precalc_r_functions _ _ _ _) as [[s b]|] eqn:PR; [|discriminate P].
  injection P as <- <-. 
  assert (YT : exists y0 y1, num_or (Some cfg) "nystart" (VInt 1750) = VInt y0 /\ num_or (Some cfg) "nyend" (VInt 2100) = VInt y1 /\
    forall z, whole_at (c_pam c) "years_tot" = Ok z -> z = (y1 - y0 + 1)%Z).
  { match goal with E : whole_at _ "years_tot" = Ok _ |- _ => pose proof E as E'; unfold whole_at in E' end. rewrite OTH, S4 in E' by (cbn; tauto).
    destruct (num_or (Some cfg) "nyend" (VInt 2100)) as [y1| | | | | | | |]; try discriminate E'. destruct (num_or (Some cfg) "nystart" (VInt 1750)) as [y0| | | | | | | |]; try discriminate E'.
    exists y0, y1. split; [reflexivity|]. split; [reflexivity|]. intros z EZ. unfold whole_at in EZ. rewrite OTH, S4 in EZ by (cbn; tauto). exact (whole_of_int _ _ EZ). }
  destruct YT as (y0 & y1 & Y0 & Y1 & YT).
  split.
  - intros k d f I. places I;
    match goal with E : num_at _ (c_pam c) ?k = Ok ?a |- stands_for _ (spec_last_num ?k ?dd _) _ => exact (num_at_is _ _ _ _ E (Q k dd eq_refl ltac:(discriminate))) end.
  - match goal with E : num_at _ (c_pam c) "preindustrial_co2_conc" = Ok ?a |- _ => exact (num_at_is _ _ _ _ E QP) end.
  - match goal with E : as_number _ (spec_last_num "preindustrial_co2_conc" start hist) = Ok ?a |- _ => unfold as_number in E; destruct (num_of _) as [y|] eqn:Y in E; [|discriminate E]; injection E as <-; exists y; auto end.
  - match goal with E : whole_at _ "idtm" = Ok ?z |- _ => exists z; split; [|reflexivity]; refine (whole_at_is _ _ _ _ E _) end. rewrite OTH by (cbn; tauto). exact S3.
  - exists y0, y1. split; [exact Y0|]. split; [exact Y1|]. cbn [years_tot]. match goal with E : whole_at _ "years_tot" = Ok ?z |- _ => rewrite (YT z E) end. reflexivity.
  - match goal with E1 : decay_of _ (c_rs c) = Ok ?rs, E2 : decay_of _ (c_rb c) = Ok ?rb |- _ => exists rs, rb; apply decay_of_is in E1, E2; rewrite Q2 in E1; rewrite Q3 in E2 end.
    split; [assumption|]. split; [assumption|]. exact PR.
Qed.

(** ** A run *)
Lemma precalculate_same (p q : hpam A) gt conc emis pert : nystart p = nystart q -> nyend p = nyend q -> emstart p = emstart q -> conc_run p = conc_run q ->
  cl_dict p = cl_dict q -> br_dict p = br_dict q -> precalculate p gt conc emis pert = precalculate q gt conc emis pert.
Proof.
  intros H1 H2 H3 H4 H5 H6. unfold precalculate, precalc_conc, strat_o3_column, sumcl_at, sumbr_at, years_of. rewrite H1, H2, H3, H4, H5, H6. reflexivity.
Qed.
Lemma start_numbers cfg env conc cl br hp0 y0 y1 ye : wf cfg -> env_conc_run env = VBool conc -> hpam_of number cl br (handler_init env (Some (driver_emiconc cfg))) = Ok hp0 ->
  whole_number (num_or (Some cfg) "nystart" (VInt 1750)) = Ok y0 -> whole_number (num_or (Some cfg) "nyend" (VInt 2100)) = Ok y1 ->
  whole_number (num_or (Some cfg) "emstart" (VInt 1850)) = Ok ye ->
  nystart hp0 = y0 /\ nyend hp0 = y1 /\ emstart hp0 = ye /\ conc_run hp0 = conc /\ cl_dict hp0 = cl /\ br_dict hp0 = br.
Proof.
  intros W EC P Y0 Y1 YE. assert (WE : opt_wf (Some (driver_emiconc cfg))) by apply driver_emiconc_wf.
  set (d := handler_init env (Some (driver_emiconc cfg))) in *. assert (H : handler_reruns env d [] = Ok d) by reflexivity.
  destruct (c04 env (Some (driver_emiconc cfg)) [] WE (Forall_nil _)) as (d' & H' & _ & QC). fold d in H'. rewrite H in H'. injection H' as <-. rewrite EC in QC.
  pose proof (fun k df z => window_whole cfg env [] d k df z W (Forall_nil _) H) as WW. clearbody d.
  unfold hpam_of in P. rewrite QC in P. steps P. injection P as <-. cbn [nystart nyend emstart conc_run cl_dict br_dict].
  assert (X0 : forall z, whole_at d "nystart" = Ok z -> z = y0) by (intros z E'; apply (WW "nystart" (VInt 1750) z ltac:(cbn; tauto) eq_refl eq_refl eq_refl) in E'; congruence).
  assert (X1 : forall z, whole_at d "nyend" = Ok z -> z = y1) by (intros z E'; apply (WW "nyend" (VInt 2100) z ltac:(cbn; tauto) eq_refl eq_refl eq_refl) in E'; congruence).
  assert (X2 : forall z, whole_at d "emstart" = Ok z -> z = ye) by (intros z E'; apply (WW "emstart" (VInt 1850) z ltac:(cbn; tauto) eq_refl eq_refl eq_refl) in E'; congruence).
  repeat split; auto.
Qed.
Lemma build_data float_of cfg x w0 : wf cfg -> build number float_of cfg x = Ok w0 ->
  driver_thermal cfg = Ok (q_thermal w0) /\ instance_numbers cfg x (q_inst w0) /\
  match x_forc x with
  | Some _ => q_fixed w0 = None
  | None => exists f hp0 start, q_fixed w0 = Some f /\ q_gas w0 = x_gas x /\
      f_conc f = x_conc x /\ f_nat_ch4 f = x_nat_ch4 x /\ f_nat_n2o f = x_nat_n2o x /\ f_pert f = x_perturb_forc x /\
      match x_perturb_em x with None => f_emis f = x_emis x | Some t => perturb_emissions t (x_emis x) = Ok (f_emis f) end /\
      make_cl_and_br_dictionaries (dkeys (x_gas x)) = Ok (f_cl f, f_br f) /\
      hpam_of number (f_cl f) (f_br f) (in_pams (q_params w0)) = Ok hp0 /\
      precalculate hp0 (x_gas x) (x_conc x) (f_emis f) (x_perturb_forc x) = Ok (f_pc f, f_erf f) /\
      fr_get (x_conc x) "CO2" (nystart hp0) = Ok start /\
      in_env (q_params w0) = env_of x /\ in_rf_run (q_params w0) = false /\ in_pams (q_params w0) = handler_init (env_of x) (Some (driver_emiconc cfg)) /\
      driver_carbon (env_of x) cfg (VNpFloat (float_of start)) = Ok (in_carbon (q_params w0))
  end.
Proof.
  intros W. unfold build. destruct (driver_thermal cfg) as [th|]; cbn [rbind]; [|discriminate]. destruct (whole_at _ "nystart") as [y0|] eqn:Y0; cbn [rbind]; [|discriminate].
  destruct (whole_at _ "nyend") as [y1|] eqn:Y1; cbn [rbind]; [|discriminate].
  apply (fun z => whole_at_is _ _ _ _ z (driver_num cfg "nystart" (VInt 1750) W eq_refl eq_refl)) in Y0.
  apply (fun z => whole_at_is _ _ _ _ z (driver_num cfg "nyend" (VInt 2100) W eq_refl eq_refl)) in Y1.
  destruct (x_forc x) as [rf|] eqn:RF.
  - intros X. injection X as <-. cbn [q_thermal q_inst q_fixed]. split; [reflexivity|]. split; [|reflexivity].
    split; cbn [d_start d_end d_rf d_sun d_luc d_vn d_vs]; auto.
  - destruct (driver_carbon_class cfg) as [cls|]; cbn [rbind]; [|discriminate]. destruct cls; cbn [rbind]; [|discriminate].
    destruct (match x_perturb_em x with None => _ | Some _ => _ end) as [emis|] eqn:PE; cbn [rbind]; [|discriminate].
    destruct (make_cl_and_br_dictionaries _) as [[cl br]|] eqn:CB; cbn [rbind]; [|discriminate]. cbn [fst snd]. destruct (hpam_of _ _ _ _) as [hp|] eqn:HP; cbn [rbind]; [|discriminate].
    destruct (precalculate _ _ _ _ _) as [[pc erf]|] eqn:PC; cbn [rbind]; [|discriminate]. destruct (fr_get _ _ _) as [st|] eqn:ST; cbn [rbind]; [|discriminate].
    destruct (driver_carbon _ _ _) as [c|] eqn:C; cbn [rbind]; [|discriminate]. destruct (cc_pam_of _ _) as [cp|]; cbn [rbind]; [|discriminate].
    intros X. injection X as <-. cbn [q_thermal q_inst q_fixed q_params q_gas in_env in_rf_run in_pams in_carbon]. split; [reflexivity|].
    split; [split; cbn [d_start d_end d_rf d_sun d_luc d_vn d_vs]; auto|].
    eexists _, hp, st. split; [reflexivity|]. cbn [f_conc f_nat_ch4 f_nat_n2o f_pert f_emis f_cl f_br f_pc f_erf].
    do 5 (split; [reflexivity|]). split; [destruct (x_perturb_em x); [exact PE|injection PE as <-; reflexivity]|].
    do 7 (split; [first [reflexivity | eassumption]|]). exact C.
Qed.
End Numbers.

Section Back.
Context {A : Type} {N : Num A}.
Variables (nan : A) (number : pyfloat -> A).
Context {T : Type} (th : thermal A T) (t0 : T).
Hypothesis DO : distinct_outputs (t_names th).
(** a completed run on a used instance has the results of the same numbers on a new one *)
Lemma from_back w0 w i b : names_of (q_thermal w0) = t_names th -> akin w0 w -> run_from nan number th t0 i w = Ok b ->
  match q_fixed w0 with
  | None => same_results (q_results b) (o_results (M_Whole.forcing_run th (q_inst w0) t0 []))
  | Some f => exists hp cp x0, hpam_of number (f_cl f) (f_br f) (in_pams i) = Ok hp /\ cc_pam_of number (in_carbon i) = Ok (cp, x0) /\
      o_exn (coupled_run nan cp (scenario_of hp f) th (q_inst w0) (q_gas w0) t0 (start_hold cp x0 no_hold) true true []) = None /\
      same_results (q_results b) (o_results (coupled_run nan cp (scenario_of hp f) th (q_inst w0) (q_gas w0) t0 (start_hold cp x0 no_hold) true true []))
  end.
Proof.
  intros NM (H1 & H2 & H3 & H4 & H5 & H6). unfold run_from. rewrite H3, NM, H2 in *. destruct (q_fixed w0) as [f|] eqn:F.
  - destruct H6 as (R & RF & E). 
    destruct (hpam_of _ _ _ _) as [hp|]; cbn [rbind]; [|discriminate]. destruct (cc_pam_of _ _) as [[cp x0]|]; cbn [rbind]; [|discriminate].
    set (sc := scenario_of hp f).
    assert (S : same_outcome (coupled_run nan cp sc th (q_inst w0) (q_gas w0) t0 (start_hold cp x0 no_hold) true true [])
                  (coupled_run nan cp sc th (q_inst w0) (q_gas w) t0 (start_hold cp x0 (q_hold w)) true true (q_results w))).
    { apply (any_rerun th DO nan (cc_state A) (co2em2conc cp) (carbon_data nan cp (c_p sc) (c_emis sc)) sc (q_inst w0) (q_gas w0) (q_gas w) t0 _ _ same_hold true true (q_results w)
        (default_forgets cp nan sc)); [repeat split|exact E]. }
    pose proof (one_more_run (t_names th) (q_gas w0) T th (q_gas w) (q_results w) nan (cc_state A) (co2em2conc cp) (carbon_data nan cp (c_p sc) (c_emis sc))
      sc (q_inst w0) t0 (start_hold cp x0 (q_hold w)) true true eq_refl E) as E'. cbv zeta in E'.
    apply (earlier_facts _ DO) in E'. destruct E' as [_ KN].
    pose proof (run_has th DO nan (cc_state A) (co2em2conc cp) (carbon_data nan cp (c_p sc) (c_emis sc)) sc (q_inst w0) (q_gas w0) t0 (start_hold cp x0 no_hold) [] R) as HAS.
    change (any_run nan (cc_state A) (co2em2conc cp) (carbon_data nan cp (c_p sc) (c_emis sc)) sc th (q_inst w0)) with (coupled_run nan cp sc th (q_inst w0)) in KN, HAS.
    destruct S as (SE & _ & SR). rewrite <- SE. destruct (o_exn _) eqn:OE; [discriminate|]. intros X. injection X as <-. exists hp, cp, x0. split; [reflexivity|]. split; [reflexivity|]. split; [exact OE|].
    cbn [q_results]. intros k. symmetry. specialize (SR k). specialize (HAS eq_refl k). specialize (KN k). fold sc.
    match goal with |- ?l = ?r => destruct l as [v|] eqn:L; [symmetry; apply SR; reflexivity|]; destruct r as [v|] eqn:Q; [|reflexivity] end.
    exfalso. apply HAS; [apply KN; intros Y; pose proof (eq_trans (eq_sym Q) Y) as Y2; discriminate Y2|exact L].
  - destruct H6 as (R & E). unfold M_Whole.forcing_run. destruct (d_rf (q_inst w0)) as [rf|] eqn:RF; [|contradiction].
    set (e2c := fun (h : unit) (_ : Z) (_ : option (dict A)) => Ok h). set (c2f := fun (_ : unit) (_ : Z) (_ _ : A) => Err ValueError).
    pose proof (c53_forcing th DO e2c c2f (fun _ _ _ => Err ValueError) None (q_inst w0) rf t0 tt tt true true true [] (q_results w) RF) as Q.
    pose proof (c53_forcing th DO e2c c2f (fun _ _ _ => Err ValueError) None (q_inst w0) rf t0 tt tt true true true (q_results w) (q_results w) RF) as Q'.
    destruct Q as (QR & QE & QN).
    rewrite <- QE. destruct (o_exn _) eqn:OE; [discriminate|]. intros X. injection X as <-.
    cbn [q_results]. intros k. symmetry. destruct (in_dec string_dec k (output_names (t_names th))) as [I|I]; [apply QR, I|].
    rewrite (QN k I). cbn [dget]. symmetry. rewrite <- (E k I). apply Q'. exact I.
Qed.
End Back.

Section Run.
Context {A : Type} {N : Num A}.
Variables (nan : A) (number : pyfloat -> A) (float_of : A -> pyfloat).
Lemma run_of cfg x w0 cs w c b f : wf cfg -> Forall dictionaries (cs ++ [c]) -> x_forc x = None -> build number float_of cfg x = Ok w0 ->
  after_runs nan number w0 cs w -> cfg_run (q_params w) c = Ok b -> q_fixed w0 = Some f ->
  forall hp cp x0, hpam_of number (f_cl f) (f_br f) (in_pams b) = Ok hp -> cc_pam_of number (in_carbon b) = Ok (cp, x0) ->
  run_numbers number float_of cfg x cs c (scenario_of hp f) cp x0 /\ q_gas w0 = x_gas x.
Proof.
  intros W FD XF B AR CR QF hp cp x0 HP CP. destruct (build_data number float_of cfg x w0 W B) as (_ & _ & D). rewrite XF in D.
  destruct D as (f' & hp0 & st & F1 & G & D1 & D2 & D3 & D4 & D5 & D6 & D7 & D8 & D9 & D10 & D11 & D12 & D13). rewrite QF in F1. injection F1 as <-.
  destruct (build_new number float_of cfg x w0 B) as [AK _]. destruct (after_akin nan number w0 cs w AK AR) as [_ CRS].
  assert (CR2 : cfg_runs (q_params w0) (cs ++ [c]) = Ok b) by (rewrite cfg_runs_snoc, CRS; exact CR).
  destruct (cfg_runs_emi _ _ _ CR2 D11) as (_ & _ & HR & KR). rewrite D10, D12 in HR. rewrite map_app in HR, KR. cbn [map] in HR, KR.
  apply Forall_app in FD. destruct FD as [FD1 FD2]. inversion FD2 as [|? ? FC _]; subst. destruct FC as (_ & FC2 & FC3).
  assert (FE : Forall opt_wf (map cf_emiconc cs)) by (apply Forall_map; eapply Forall_impl; [|exact FD1]; intros q Hq; apply Hq).
  assert (FK : Forall opt_wf (map cf_carbon cs)) by (apply Forall_map; eapply Forall_impl; [|exact FD1]; intros q Hq; apply Hq).
  destruct (handler_numbers_of number cfg (env_of x) (x_conc_run x) _ _ _ (f_cl f) (f_br f) hp W FE FC2 eq_refl HR HP) as (HN & HC & HB).
  assert (H0 : nystart hp0 = nystart hp /\ nyend hp0 = nyend hp /\ emstart hp0 = emstart hp /\ conc_run hp0 = conc_run hp /\ cl_dict hp0 = cl_dict hp /\ br_dict hp0 = br_dict hp).
  { pose proof (hn_window _ _ _ _ _ _ _ HN) as (W1 & W2 & W3). pose proof (hn_conc _ _ _ _ _ _ _ HN) as W4. rewrite HC, HB, W4.
    apply (start_numbers number cfg (env_of x) (x_conc_run x) (f_cl f) (f_br f) hp0 _ _ _ W eq_refl); [rewrite <- D12; exact D7|assumption..]. }
  destruct H0 as (S1 & S2 & S3 & S4 & S5 & S6). split; [|exact G].
  split; unfold scenario_of; cbn [c_p c_conc c_nat_ch4 c_nat_n2o c_pert c_emis c_pc c_erf].
  - exact HN.
  - rewrite HC, HB. exact D6.
  - auto.
  - exact D5.
  - rewrite <- (precalculate_same hp0 hp) by assumption. exact D8.
  - exists st. rewrite <- S1. split; [exact D9|].
    exact (carbon_numbers_of number cfg (env_of x) (VNpFloat (float_of st)) _ _ _ _ cp x0 W FK FC3 eq_refl D13 KR CP).
Qed.
Lemma c99_run cfg x w0 cs w c b : wf cfg -> Forall dictionaries (cs ++ [c]) -> build number float_of cfg x = Ok w0 -> after_runs nan number w0 cs w ->
  whole_run nan number w (cf_udm c) (cf_emiconc c) (cf_carbon c) = Ok b -> x_forc x = None ->
  exists i sc cp x0 cl, instance_numbers cfg x i /\ run_numbers number float_of cfg x cs c sc cp x0 /\ driver_thermal cfg = Ok cl /\
  match cl with
  | TwoLayer => exists p, tl_numbers number (cf_udm c) p /\
      o_exn (coupled_run nan cp sc (tl_thermal p) i (x_gas x) (tl_init p) (start_hold cp x0 no_hold) true true []) = None /\
      same_results (q_results b) (o_results (coupled_run nan cp sc (tl_thermal p) i (x_gas x) (tl_init p) (start_hold cp x0 no_hold) true true []))
  | UpwellingDiffusion => exists p, ud_numbers number (cf_udm c) p /\
      o_exn (coupled_run nan cp sc (ud_thermal p) i (x_gas x) (ud_init p) (start_hold cp x0 no_hold) true true []) = None /\
      same_results (q_results b) (o_results (coupled_run nan cp sc (ud_thermal p) i (x_gas x) (ud_init p) (start_hold cp x0 no_hold) true true []))
  end.
Proof.
  intros W FD B AR H XF. destruct (build_data number float_of cfg x w0 W B) as (TH & IN & D). rewrite XF in D. destruct D as (f & D).
  assert (QF : q_fixed w0 = Some f) by (destruct D as (? & ? & D & _); exact D). clear D.
  destruct (build_new number float_of cfg x w0 B) as [AK0 _]. destruct (after_akin nan number w0 cs w AK0 AR) as [AK _].
  assert (O : opt_wf (cf_udm c)) by (apply Forall_app in FD; destruct FD as [_ FD]; inversion FD as [|? ? FC _]; apply FC).
  pose proof (run_of cfg x w0 cs w c) as RO.
  revert H. unfold whole_run. fold (cfg_run (q_params w) c). replace (q_thermal w) with (q_thermal w0) by (symmetry; apply AK). destruct (q_thermal w0) eqn:QT.
  - destruct (ud_pam_of number (cf_udm c)) as [p|] eqn:P; cbn [rbind]; [|discriminate]. destruct (cfg_run (q_params w) c) as [j|] eqn:J; cbn [rbind]; [|discriminate]. intros H.
    pose proof (from_back nan number (ud_thermal p) (ud_init p) ud_distinct w0 w j b) as FB. rewrite QT, QF in FB. destruct (FB eq_refl AK H) as (hp & cp & x0 & HP & CP & S).
    destruct (RO j f W FD XF B AR eq_refl QF hp cp x0 HP CP) as [RN G]. rewrite G in S.
    exists (q_inst w0), (scenario_of hp f), cp, x0, UpwellingDiffusion. split; [exact IN|]. split; [exact RN|]. split; [exact TH|]. exists p. split; [exact (ud_numbers_of number _ p O P)|exact S].
  - destruct (tl_pam_of number (cf_udm c)) as [p|] eqn:P; cbn [rbind]; [|discriminate]. destruct (cfg_run (q_params w) c) as [j|] eqn:J; cbn [rbind]; [|discriminate]. intros H.
    pose proof (from_back nan number (tl_thermal p) (tl_init p) tl_distinct w0 w j b) as FB. rewrite QT, QF in FB. destruct (FB eq_refl AK H) as (hp & cp & x0 & HP & CP & S).
    destruct (RO j f W FD XF B AR eq_refl QF hp cp x0 HP CP) as [RN G]. rewrite G in S.
    exists (q_inst w0), (scenario_of hp f), cp, x0, TwoLayer. split; [exact IN|]. split; [exact RN|]. split; [exact TH|]. exists p. split; [exact (tl_numbers_of number _ p O P)|exact S].
Qed.
Lemma tab_repeat (v : A) n : tab n (fun _ => v) = repeat v n.
Proof. unfold tab. generalize 0%nat. induction n as [|n IH]; intros k; [reflexivity|]. cbn [seq map repeat]. rewrite IH. reflexivity. Qed.
Lemma start_new cp x0 h : new_carbon cp x0 (start_hold cp x0 h).
Proof. constructor; try reflexivity; apply tab_repeat. Qed.
Lemma c99_fresh cfg x w0 cs w c b : wf cfg -> Forall dictionaries (cs ++ [c]) -> build number float_of cfg x = Ok w0 -> after_runs nan number w0 cs w ->
  whole_run nan number w (cf_udm c) (cf_emiconc c) (cf_carbon c) = Ok b -> x_forc x = None ->
  exists i sc cp x0 s cl, instance_numbers cfg x i /\ run_numbers number float_of cfg x cs c sc cp x0 /\ new_carbon cp x0 s /\ driver_thermal cfg = Ok cl /\
  match cl with
  | TwoLayer => exists p, tl_numbers number (cf_udm c) p /\
      o_exn (coupled_run nan cp sc (tl_thermal p) i (x_gas x) (tl_init p) s true true []) = None /\
      same_results (q_results b) (o_results (coupled_run nan cp sc (tl_thermal p) i (x_gas x) (tl_init p) s true true []))
  | UpwellingDiffusion => exists p, ud_numbers number (cf_udm c) p /\
      o_exn (coupled_run nan cp sc (ud_thermal p) i (x_gas x) (ud_init p) s true true []) = None /\
      same_results (q_results b) (o_results (coupled_run nan cp sc (ud_thermal p) i (x_gas x) (ud_init p) s true true []))
  end.
Proof.
  intros W FD B AR H XF. destruct (c99_run cfg x w0 cs w c b W FD B AR H XF) as (i & sc & cp & x0 & cl & I1 & I2 & I3 & I4).
  exists i, sc, cp, x0, (start_hold cp x0 no_hold), cl. split; [exact I1|]. split; [exact I2|]. split; [apply start_new|]. split; [exact I3|exact I4].
Qed.
Lemma c99_forcing cfg x w0 cs w c b : wf cfg -> dictionaries c -> build number float_of cfg x = Ok w0 -> after_runs nan number w0 cs w ->
  whole_run nan number w (cf_udm c) (cf_emiconc c) (cf_carbon c) = Ok b -> x_forc x <> None ->
  exists i cl, instance_numbers cfg x i /\ driver_thermal cfg = Ok cl /\
  match cl with
  | TwoLayer => exists p, tl_numbers number (cf_udm c) p /\ same_results (q_results b) (o_results (M_Whole.forcing_run (tl_thermal p) i (tl_init p) []))
  | UpwellingDiffusion => exists p, ud_numbers number (cf_udm c) p /\ same_results (q_results b) (o_results (M_Whole.forcing_run (ud_thermal p) i (ud_init p) []))
  end.
Proof.
  intros W FD B AR H XF. destruct (build_data number float_of cfg x w0 W B) as (TH & IN & QF). destruct (x_forc x) as [rf|]; [|contradiction].
  destruct (build_new number float_of cfg x w0 B) as [AK0 _]. destruct (after_akin nan number w0 cs w AK0 AR) as [AK _].
  assert (O : opt_wf (cf_udm c)) by apply FD.
  revert H. unfold whole_run. fold (cfg_run (q_params w) c). replace (q_thermal w) with (q_thermal w0) by (symmetry; apply AK). destruct (q_thermal w0) eqn:QT.
  - destruct (ud_pam_of number (cf_udm c)) as [p|] eqn:P; cbn [rbind]; [|discriminate]. destruct (cfg_run (q_params w) c) as [j|] eqn:J; cbn [rbind]; [|discriminate]. intros H.
    pose proof (from_back nan number (ud_thermal p) (ud_init p) ud_distinct w0 w j b) as FB. rewrite QT, QF in FB. pose proof (FB eq_refl AK H) as S.
    exists (q_inst w0), UpwellingDiffusion. split; [exact IN|]. split; [exact TH|]. exists p. split; [exact (ud_numbers_of number _ p O P)|exact S].
  - destruct (tl_pam_of number (cf_udm c)) as [p|] eqn:P; cbn [rbind]; [|discriminate]. destruct (cfg_run (q_params w) c) as [j|] eqn:J; cbn [rbind]; [|discriminate]. intros H.
    pose proof (from_back nan number (tl_thermal p) (tl_init p) tl_distinct w0 w j b) as FB. rewrite QT, QF in FB. pose proof (FB eq_refl AK H) as S.
    exists (q_inst w0), TwoLayer. split; [exact IN|]. split; [exact TH|]. exists p. split; [exact (tl_numbers_of number _ p O P)|exact S].
Qed.
End Run.
