(** * P_CarbonPams: proofs about the parameters of the carbon-cycle model *)
From Verif Require Import PyBase PyBaseFacts M_Utils M_Flat M_Pams Spec_Pams P_Pams P_Flat.

Lemma Ok_inj {A} (a b : A) : Ok a = Ok b -> a = b.
Proof. intros H; injection H as H; exact H. Qed.

Definition numeric_keys : list string := dkeys carbon_required.

Lemma numeric_key_plain k : In k numeric_keys ->
  (forall pre, In pre ["rb_coef"; "rb_tim"; "rs_coef"; "rs_tim"] -> flat_key pre k = false) /\
  String.eqb k "rb_function" = false /\ String.eqb k "rs_function" = false /\
  String.eqb "years_tot" k = false.
Proof.
  intros H. unfold numeric_keys in H; simpl in H.
  repeat (destruct H as [<-|H];
    [split; [simpl; intros pre [<-|[<-|[<-|[<-|[]]]]]; reflexivity | repeat split; reflexivity]|]).
  contradiction.
Qed.

Lemma flat_plain p p1 k : wf p -> process_flat_carbon_parameters p = Ok p1 ->
  (forall pre, In pre ["rb_coef"; "rb_tim"; "rs_coef"; "rs_tim"] -> flat_key pre k = false) ->
  String.eqb k "rb_function" = false -> String.eqb k "rs_function" = false ->
  dget p1 k = dget p k.
Proof.
  intros Hwf H Hp H1 H2. pose proof (flat_spec p Hwf) as S. rewrite H in S. destruct S as (_ & _ & S).
  rewrite S. unfold flat_result_at.
  rewrite !Hp by (simpl; tauto). rewrite H1, H2. cbn [orb]. rewrite !Bool.andb_false_r. reflexivity.
Qed.

Lemma flat_wf p p1 : wf p -> process_flat_carbon_parameters p = Ok p1 -> wf p1.
Proof. intros Hwf H. pose proof (flat_spec p Hwf) as S. rewrite H in S. tauto. Qed.

Opaque process_flat_carbon_parameters carbon_required.

Lemma funs_fold_get (p1 : dict pyval) d k :
  dget (fold_left (fun d key => match dget p1 key with Some v => dset d key v | None => d end)
          ["rs_function"; "rb_function"] d) k =
  if (String.eqb k "rs_function" || String.eqb k "rb_function")%bool
  then match dget p1 k with Some v => Some v | None => dget d k end
  else dget d k.
Proof.
  cbn [fold_left].
  destruct (String.eqb k "rs_function") eqn:E1; [apply String.eqb_eq in E1; subst k|];
  [|destruct (String.eqb k "rb_function") eqn:E2; [apply String.eqb_eq in E2; subst k|]]; cbn [orb].
  - destruct (dget p1 "rb_function"); rewrite ?(dget_dset_neq _ "rb_function" "rs_function") by discriminate;
    destruct (dget p1 "rs_function"); rewrite ?dget_dset_eq; reflexivity.
  - destruct (dget p1 "rb_function"); rewrite ?dget_dset_eq; [reflexivity|].
    destruct (dget p1 "rs_function"); rewrite ?(dget_dset_neq _ "rs_function" "rb_function") by discriminate; reflexivity.
  - apply String.eqb_neq in E1, E2.
    destruct (dget p1 "rb_function"); rewrite ?dget_dset_neq by congruence;
    destruct (dget p1 "rs_function"); rewrite ?dget_dset_neq by congruence; reflexivity.
Qed.

(** Parameters after one reset. *)
Lemma carbon_reset_num c p0 c' k : wf p0 -> carbon_reset c (Some p0) = Ok c' -> In k numeric_keys ->
  dget (c_pam c') k = spec_updated (c_pam c) p0 numeric_keys k.
Proof.
  intros Hwf H Hk. unfold carbon_reset in H.
  destruct (process_flat_carbon_parameters p0) as [p1|] eqn:F; [|discriminate]. cbn [rbind] in H.
  apply Ok_inj in H; rewrite <- H. cbn [c_pam].
  destruct (numeric_key_plain k Hk) as (Hp & E1 & E2 & _).
  rewrite funs_fold_get, E1, E2. cbn [orb].
  rewrite upd_get by exact (flat_wf _ _ Hwf F).
  unfold spec_updated. rewrite (flat_plain p0 p1 k Hwf F Hp E1 E2). reflexivity.
Qed.

Lemma carbon_reset_fun c p0 c' k : wf p0 -> carbon_reset c (Some p0) = Ok c' ->
  k = "rs_function" \/ k = "rb_function" ->
  dget (c_pam c') k = match flat_result_at p0 k with Some v => Some v | None => dget (c_pam c) k end.
Proof.
  intros Hwf H Hk. unfold carbon_reset in H.
  destruct (process_flat_carbon_parameters p0) as [p1|] eqn:F; [|discriminate]. cbn [rbind] in H.
  apply Ok_inj in H; rewrite <- H. cbn [c_pam].
  pose proof (flat_spec p0 Hwf) as S. rewrite F in S. destruct S as (_ & W1 & S).
  rewrite funs_fold_get. rewrite <- S.
  assert (Hs : smem k (dkeys carbon_required) = false) by (destruct Hk as [-> | ->]; reflexivity).
  rewrite upd_get by exact W1. unfold spec_updated. rewrite Hs.
  destruct Hk as [-> | ->]; cbn [String.eqb Ascii.eqb Bool.eqb orb andb].
  - destruct (dget p1 "rs_function"); [reflexivity|]. destruct (dget (c_pam c) "rs_function"); reflexivity.
  - destruct (dget p1 "rb_function"); [reflexivity|]. destruct (dget (c_pam c) "rb_function"); reflexivity.
Qed.

Lemma carbon_reset_x0 c p c' : carbon_reset c p = Ok c' ->
  c_x0 c' = dget (c_pam c) "preindustrial_co2_conc".
Proof.
  unfold carbon_reset; intros H. destruct p as [p0|]; [|apply Ok_inj in H; rewrite <- H; reflexivity].
  destruct (process_flat_carbon_parameters p0) as [p1|]; [|discriminate]. apply Ok_inj in H; rewrite <- H. reflexivity.
Qed.

Lemma carbon_reset_none c c' : carbon_reset c None = Ok c' -> c_pam c' = c_pam c.
Proof. unfold carbon_reset; intros H; apply Ok_inj in H; rewrite <- H; reflexivity. Qed.

Lemma carbon_resets_num hist : forall c c' k v0, Forall opt_wf hist -> carbon_resets c hist = Ok c' ->
  In k numeric_keys -> dget (c_pam c) k = Some v0 ->
  dget (c_pam c') k = Some (spec_last_num k v0 hist).
Proof.
  induction hist as [|p r IH]; simpl; intros c c' k v0 Hf H Hk Hv; [apply Ok_inj in H; rewrite <- H; exact Hv|].
  inversion Hf as [|? ? Hp Hr]; subst.
  destruct (carbon_reset c p) as [c1|] eqn:E; [|discriminate]. cbn [rbind] in H.
  apply (IH c1 c' k); auto. destruct p as [d|]; [|rewrite (carbon_reset_none _ _ E); exact Hv].
  rewrite (carbon_reset_num c d c1 k Hp E Hk). unfold spec_updated. rewrite Hv.
  destruct (dget d k) as [w|]; [|reflexivity].
  assert (S : smem k numeric_keys = true) by (apply smem_In, Hk). rewrite S. reflexivity.
Qed.

Definition fun_of (p : option (dict pyval)) (k : string) : option pyval :=
  match p with Some d => flat_result_at d k | None => None end.

Fixpoint spec_last_fun (k : string) (v0 : option pyval) (hist : list (option (dict pyval))) : option pyval :=
  match hist with
  | [] => v0
  | p :: r => spec_last_fun k (match fun_of p k with Some v => Some v | None => v0 end) r
  end.

Lemma carbon_reset_rsrb c p c' : opt_wf p -> carbon_reset c p = Ok c' ->
  c_rs c = dget (c_pam c) "rs_function" -> c_rb c = dget (c_pam c) "rb_function" ->
  c_rs c' = dget (c_pam c') "rs_function" /\ c_rb c' = dget (c_pam c') "rb_function".
Proof.
  intros Hp H H1 H2. destruct p as [p0|].
  - pose proof (carbon_reset_fun c p0 c' "rs_function" Hp H (or_introl eq_refl)) as R1.
    pose proof (carbon_reset_fun c p0 c' "rb_function" Hp H (or_intror eq_refl)) as R2.
    unfold carbon_reset in H.
    pose proof (flat_spec p0 Hp) as S.
    destruct (process_flat_carbon_parameters p0) as [p1|] eqn:F; [|discriminate]. cbn [rbind] in H.
    destruct S as (_ & _ & S). rewrite <- S in R1, R2.
    apply Ok_inj in H; subst c'. cbn [c_pam c_rs c_rb] in *. unfold dmem.
    destruct (dget p1 "rs_function") eqn:G1; destruct (dget p1 "rb_function") eqn:G2; cbn [orb]; auto.
    rewrite R1, R2. auto.
  - unfold carbon_reset in H. apply Ok_inj in H; rewrite <- H. auto.
Qed.

Lemma carbon_resets_fun hist : forall c c' k, Forall opt_wf hist -> carbon_resets c hist = Ok c' ->
  k = "rs_function" \/ k = "rb_function" ->
  dget (c_pam c') k = spec_last_fun k (dget (c_pam c) k) hist.
Proof.
  induction hist as [|p r IH]; simpl; intros c c' k Hf H Hk; [apply Ok_inj in H; rewrite <- H; reflexivity|].
  inversion Hf as [|? ? Hp Hr]; subst.
  destruct (carbon_reset c p) as [c1|] eqn:E; [|discriminate]. cbn [rbind] in H.
  rewrite (IH c1 c' k Hr H Hk). f_equal. destruct p as [d|]; simpl.
  - rewrite (carbon_reset_fun c d c1 k Hp E Hk). reflexivity.
  - rewrite (carbon_reset_none _ _ E). reflexivity.
Qed.

Lemma carbon_resets_rsrb hist : forall c c', Forall opt_wf hist -> carbon_resets c hist = Ok c' ->
  c_rs c = dget (c_pam c) "rs_function" -> c_rb c = dget (c_pam c) "rb_function" ->
  c_rs c' = dget (c_pam c') "rs_function" /\ c_rb c' = dget (c_pam c') "rb_function".
Proof.
  induction hist as [|p r IH]; simpl; intros c c' Hf H H1 H2; [apply Ok_inj in H; rewrite <- H; auto|].
  inversion Hf as [|? ? Hp Hr]; subst.
  destruct (carbon_reset c p) as [c1|] eqn:E; [|discriminate]. cbn [rbind] in H.
  destruct (carbon_reset_rsrb c p c1 Hp E H1 H2) as [G1 G2]. eapply IH; eauto.
Qed.

(** A complete numeric set erases the past. *)
Definition complete_set (p : dict pyval) : Prop :=
  forall k, In k numeric_keys -> exists v, dget p k = Some v /\ is_num v = true.

Lemma carbon_complete h1 h2 p c1 c2 c1' c2' : Forall opt_wf h1 -> Forall opt_wf h2 -> wf p -> complete_set p ->
  (forall k, In k numeric_keys -> dmem (c_pam c1) k = true /\ dmem (c_pam c2) k = true) ->
  carbon_resets c1 (h1 ++ [Some p]) = Ok c1' -> carbon_resets c2 (h2 ++ [Some p]) = Ok c2' ->
  forall k, In k numeric_keys -> dget (c_pam c1') k = dget (c_pam c2') k /\ dget (c_pam c1') k = dget p k.
Proof.
  intros F1 F2 Wp Cp Hm E1 E2 k Hk. destruct (Hm k Hk) as [M1 M2].
  apply dmem_true in M1, M2. destruct M1 as [v1 V1], M2 as [v2 V2].
  assert (Fs : forall h, Forall opt_wf h -> Forall opt_wf (h ++ [Some p])).
  { intros h Hh; apply Forall_app; split; [exact Hh | constructor; [exact Wp | constructor]]. }
  rewrite (carbon_resets_num _ _ _ k v1 (Fs _ F1) E1 Hk V1), (carbon_resets_num _ _ _ k v2 (Fs _ F2) E2 Hk V2).
  assert (L : forall h v, Some (spec_last_num k v (h ++ [Some p])) = dget p k).
  { induction h as [|q r IH]; intros v; simpl; [|apply IH].
    destruct (Cp k Hk) as [w [W N]]. rewrite W, N. reflexivity. }
  rewrite !L. auto.
Qed.

(** ** constructor *)
Lemma carbon_required_wf : wf carbon_required.
Proof.
  Transparent carbon_required.
  unfold wf; simpl. repeat (constructor; [simpl; intuition discriminate|]). constructor.
  Opaque carbon_required.
Qed.

Lemma ddel_length (d : dict pyval) k : In k (dkeys d) -> S (List.length (ddel d k)) = List.length d.
Proof.
  induction d as [|[k0 v0] r IH]; simpl; [tauto|]. intros [->|H].
  - rewrite String.eqb_refl. reflexivity.
  - destruct (String.eqb k0 k); [reflexivity|]. simpl. f_equal. apply IH, H.
Qed.

Lemma missing_eqb v : py_eqb v (VStr "missing") = true <-> v = VStr "missing".
Proof.
  split; [|intros ->; reflexivity].
  destruct v; simpl; try discriminate. intros H; apply String.eqb_eq in H; now subst.
Qed.

Lemma tom_loop_spec items : forall d, (forall k v, In (k, v) items -> In k (dkeys d)) ->
  tom_loop (List.length d) d items =
  if existsb (fun kv => py_eqb (snd kv) (VStr "missing")) items then Err RuntimeError else Ok d.
Proof.
  induction items as [|[k v] r IH]; intros d H; cbn [tom_loop existsb snd]; rewrite Nat.eqb_refl; cbn [negb]; [reflexivity|].
  destruct (py_eqb v (VStr "missing")); cbn [orb].
  - assert (L : S (List.length (ddel d k)) = List.length d) by (apply ddel_length, (H k v); now left).
    assert (E : Nat.eqb (List.length (ddel d k)) (List.length d) = false) by (apply Nat.eqb_neq; lia).
    destruct r as [|[k2 v2] r]; cbn [tom_loop]; rewrite E; reflexivity.
  - apply IH. intros k2 v2 Hin. apply (H k2 v2). now right.
Qed.

Lemma take_out_missing_eq p : take_out_missing p =
  if existsb (fun kv => py_eqb (snd kv) (VStr "missing")) p then Err RuntimeError else Ok p.
Proof. apply tom_loop_spec. intros k v H. exact (in_map fst _ _ H). Qed.

Lemma take_out_missing_spec p :
  take_out_missing p = Ok p \/ (take_out_missing p = Err RuntimeError /\ exists k v, In (k, v) p /\ v = VStr "missing").
Proof.
  rewrite take_out_missing_eq. destruct (existsb _ p) eqn:E; [right|now left]. split; [reflexivity|].
  apply existsb_exists in E. destruct E as [[k v] [Hin Hv]]. exists k, v; split; [exact Hin|].
  cbn [snd] in Hv. apply missing_eqb, Hv.
Qed.

Lemma carbon_init_num emi pc c k dflt : wf pc -> carbon_init emi (Some pc) = Ok c ->
  dget carbon_required k = Some dflt ->
  dget (c_pam c) k = Some (num_or (Some pc) k dflt).
Proof.
  intros Hwf H Hd.
  assert (Hk : In k numeric_keys) by (apply dget_In_keys, dmem_true; eauto).
  destruct (numeric_key_plain k Hk) as (Hp & E1 & E2 & E3).
  unfold carbon_init in H.
  destruct (process_flat_carbon_parameters pc) as [p1|] eqn:F; [|discriminate]. cbn [rbind] in H.
  unfold carbon_cycle_init_pamsets in H.
  set (cc := cut_and_check_pamset carbon_required p1 carbon_used) in *.
  set (win := cut_and_check_pamset window_required emi []) in *.
  destruct (take_out_missing_spec cc) as [T|[T _]]; rewrite T in H; cbn [rbind] in H; [|discriminate].
  destruct (carbon_reset _ (Some cc)) as [c1|] eqn:R; [|discriminate]. cbn [rbind] in H.
  apply Ok_inj in H; rewrite <- H. cbn [c_pam].
  assert (Wcc : wf cc) by apply cut_and_check_wf.
  rewrite (carbon_reset_num _ cc c1 k Wcc R Hk). cbn [c_pam]. unfold spec_updated.
  rewrite dget_dset, E3, dget_dupdate by exact Wcc.
  assert (Ecc : dget cc k = Some (num_or (Some pc) k dflt)).
  { unfold cc. rewrite cut_and_check_get; [|apply carbon_required_wf | exact (flat_wf _ _ Hwf F)].
    unfold spec_completed. rewrite Hd. rewrite (flat_plain pc p1 k Hwf F Hp E1 E2).
    unfold num_or, given. destruct (dget pc k); reflexivity. }
  rewrite Ecc.
  destruct (smem k numeric_keys && is_num (num_or (Some pc) k dflt))%bool; reflexivity.
Qed.

Lemma handler_carbon_num env p pc preind c : wf match pc with Some d => d | None => [] end ->
  handler_carbon env p pc preind = Ok c ->
  dget (c_pam c) "preindustrial_co2_conc" =
  Some (if is_num preind then preind else flt 278 1).
Proof.
  intros Hwf H. unfold handler_carbon in H.
  set (d := dset (match pc with Some d => d | None => [] end) "preindustrial_co2_conc" preind) in *.
  match type of H with rbind (carbon_init ?e _) _ = _ => set (hp := e) in * end.
  destruct (carbon_init hp (Some d)) as [c1|] eqn:E; [|discriminate]. cbn [rbind] in H.
  assert (Wd : wf d) by (apply wf_dset, Hwf).
  assert (Hk : In "preindustrial_co2_conc" numeric_keys).
  { Transparent carbon_required. unfold numeric_keys; simpl; tauto. }
  rewrite (carbon_reset_num c1 d c "preindustrial_co2_conc" Wd H Hk). unfold spec_updated.
  rewrite (carbon_init_num hp d c1 "preindustrial_co2_conc" (flt 278 1) Wd E eq_refl).
  unfold num_or, given, d. rewrite dget_dset_eq.
  assert (S : smem "preindustrial_co2_conc" numeric_keys = true) by (apply smem_In, Hk). rewrite S.
  destruct (is_num preind); reflexivity.
Qed.

(** ** C07: rs/rb functions in the constructor's configuration *)
Definition not_rfun (kv : string * pyval) : bool := negb (smem (fst kv) ["rs_function"; "rb_function"]).
Definition without_rfuns (cfg : dict pyval) : dict pyval := filter not_rfun cfg.

Lemma filter_filter_absorb {A} (f g : A -> bool) l : (forall x, f x = true -> g x = true) ->
  filter f (filter g l) = filter f l.
Proof.
  intros H; induction l as [|x r IH]; simpl; [reflexivity|].
  destruct (g x) eqn:G; simpl; [rewrite IH; reflexivity|].
  destruct (f x) eqn:F; [rewrite (H x F) in G; discriminate | exact IH].
Qed.

Lemma driver_cfg_without cfg : wf cfg -> driver_cfg (without_rfuns cfg) = driver_cfg cfg.
Proof.
  intros Hwf. unfold driver_cfg, cut_and_check_pamset. f_equal. cbn [driver_used].
  rewrite !cut_filter by (try apply wf_filter; exact Hwf).
  unfold without_rfuns. apply filter_filter_absorb.
  intros [k v] H. cbn [fst] in H. unfold not_rfun, smem; cbn [fst existsb].
  destruct (String.eqb k "rs_function") eqn:E1; [apply String.eqb_eq in E1; subst; vm_compute in H; discriminate|].
  destruct (String.eqb k "rb_function") eqn:E2; [apply String.eqb_eq in E2; subst; vm_compute in H; discriminate|].
  reflexivity.
Qed.

Lemma filter_dset_drop (f : string * pyval -> bool) (d : dict pyval) k v :
  (forall w, f (k, w) = false) -> filter f (dset d k v) = filter f d.
Proof.
  intros H. induction d as [|[k0 v0] r IH]; simpl; [rewrite H; reflexivity|].
  destruct (String.eqb k0 k) eqn:E; simpl.
  - apply String.eqb_eq in E; subst. rewrite !H. reflexivity.
  - rewrite IH; reflexivity.
Qed.

Lemma emiconc_cut (f : string * pyval -> bool) (base : dict pyval) : (forall k w, smem k ["rs_function"; "rb_function"] = true -> f (k, w) = false) ->
  forall cfg, filter f
  (fold_left (fun d kv => if smem (fst kv) ["rs_function"; "rb_function"] then dset d (fst kv) (snd kv) else d) cfg base)
  = filter f base.
Proof.
  intros H cfg. revert base; induction cfg as [|[k v] r IH]; intros base; cbn [fold_left]; [reflexivity|].
  rewrite IH. cbn [fst snd]. destruct (smem k _) eqn:E; [|reflexivity].
  apply filter_dset_drop. intros w; apply H, E.
Qed.

Definition base_emiconc (cfg : dict pyval) : dict pyval :=
  [ ("carbon_cycle_model", model_name (driver_cfg cfg) "carbon_cycle_model");
    ("emstart", dget_def (driver_cfg cfg) "emstart"); ("nystart", dget_def (driver_cfg cfg) "nystart");
    ("nyend", dget_def (driver_cfg cfg) "nyend"); ("idtm", dget_def (driver_cfg cfg) "idtm") ].

Definition emi_step (d : dict pyval) (kv : string * pyval) : dict pyval :=
  if smem (fst kv) ["rs_function"; "rb_function"] then dset d (fst kv) (snd kv) else d.

Lemma emi_fold_get k : smem k ["rs_function"; "rb_function"] = false -> forall cfg base,
  dget (fold_left emi_step cfg base) k = dget base k.
Proof.
  intros H; induction cfg as [|[k0 v0] r IH]; intros base; cbn [fold_left]; [reflexivity|].
  rewrite IH. unfold emi_step; cbn [fst snd]. destruct (smem k0 _) eqn:E; [|reflexivity].
  apply dget_dset_neq. intros ->; congruence.
Qed.

Lemma emi_fold_wf cfg : forall base, wf base -> wf (fold_left emi_step cfg base).
Proof.
  induction cfg as [|[k0 v0] r IH]; intros base H; cbn [fold_left]; [exact H|].
  apply IH. unfold emi_step; cbn [fst snd]. destruct (smem k0 _); auto using wf_dset.
Qed.

Lemma base_wf cfg : wf (base_emiconc cfg).
Proof. unfold wf; simpl. repeat (constructor; [simpl; intuition discriminate|]). constructor. Qed.

Lemma check_pamset_emiconc cfg : 
  check_pamset (Some (driver_emiconc cfg)) = check_pamset (Some (base_emiconc cfg)).
Proof.
  Transparent check_pamset.
  unfold check_pamset, cut_and_check_pamset. f_equal. cbn [handler_used].
  assert (EW : wf (driver_emiconc cfg)) by (apply (emi_fold_wf (driver_caller_cfg cfg)), base_wf).
  rewrite !cut_filter by (apply check_pamset_caller_wf; first [exact EW | apply base_wf]).
  assert (L1 : dmem (driver_emiconc cfg) "lifetime_mode" = false).
  { unfold dmem. change (driver_emiconc cfg) with (fold_left emi_step (driver_caller_cfg cfg) (base_emiconc cfg)).
    rewrite emi_fold_get by reflexivity. reflexivity. }
  assert (L2 : forall v, dmem (dset (driver_emiconc cfg) "lifetime_mode" v) "carbon_cycle_model" = true).
  { intros v. unfold dmem. rewrite dget_dset_neq by discriminate.
    change (driver_emiconc cfg) with (fold_left emi_step (driver_caller_cfg cfg) (base_emiconc cfg)).
    rewrite emi_fold_get by reflexivity. reflexivity. }
  unfold check_pamset_caller at 1. rewrite L1, L2.
  unfold check_pamset_caller.
  change (dmem (base_emiconc cfg) "lifetime_mode") with false.
  change (dmem (dset (base_emiconc cfg) "lifetime_mode" (VStr "TAR")) "carbon_cycle_model") with true.
  cbv iota.
  set (f := fun kv : string * pyval => dmem (dupdate _ _) (fst kv)).
  assert (Hf : forall k w, smem k ["rs_function"; "rb_function"] = true -> f (k, w) = false).
  { intros k w H. apply smem_In in H. destruct H as [<-|[<-|[]]]; reflexivity. }
  assert (A : forall (d : dict pyval) v, dmem d "lifetime_mode" = false ->
     dset d "lifetime_mode" v = d ++ [("lifetime_mode", v)]).
  { intros d v. unfold dmem. induction d as [|[k0 v0] r IH]; simpl; intros H; [reflexivity|].
    destruct (String.eqb k0 "lifetime_mode"); [discriminate|]. rewrite IH by exact H. reflexivity. }
  rewrite (A (driver_emiconc cfg)) by exact L1. rewrite (A (base_emiconc cfg)) by reflexivity.
  replace (dmem (base_emiconc cfg ++ [("lifetime_mode", VStr "TAR")]) "carbon_cycle_model") with true by reflexivity.
  cbv iota. rewrite !filter_app. apply (f_equal (fun l => l ++ filter f [("lifetime_mode", VStr "TAR")])).
  exact (emiconc_cut f (base_emiconc cfg) Hf (driver_caller_cfg cfg)).
Qed.

Opaque check_pamset cut_and_check_pamset carbon_required.

Lemma base_without cfg : wf cfg -> base_emiconc (without_rfuns cfg) = base_emiconc cfg.
Proof. intros H; unfold base_emiconc; rewrite driver_cfg_without by exact H; reflexivity. Qed.

Theorem rfuns_ignored env cfg preind : wf cfg ->
  driver_carbon env cfg preind = driver_carbon env (without_rfuns cfg) preind.
Proof.
  intros Hwf. unfold driver_carbon, handler_carbon.
  rewrite (check_pamset_emiconc cfg), (check_pamset_emiconc (without_rfuns cfg)), (base_without cfg Hwf). reflexivity.
Qed.

Theorem rfuns_nonint env cfg1 cfg2 preind : wf cfg1 -> wf cfg2 ->
  without_rfuns cfg1 = without_rfuns cfg2 ->
  driver_carbon env cfg1 preind = driver_carbon env cfg2 preind.
Proof. intros H1 H2 H. rewrite (rfuns_ignored env cfg1), (rfuns_ignored env cfg2), H by assumption. reflexivity. Qed.

(** ... and the built-in decay functions are the ones in force after construction. *)
Lemma driver_carbon_builtin env cfg preind c : driver_carbon env cfg preind = Ok c ->
  c_rs c = None /\ c_rb c = None.
Proof.
  unfold driver_carbon, handler_carbon. intros H.
  match type of H with rbind (carbon_init ?e _) _ = _ => set (hp := e) in * end.
  set (d := dset [] "preindustrial_co2_conc" preind) in *.
  assert (Wd : wf d) by (unfold d, wf; simpl; repeat constructor; simpl; tauto).
  destruct (carbon_init hp (Some d)) as [c1|] eqn:E; [|discriminate]. cbn [rbind] in H.
  assert (Hn : forall k, flat_result_at d k = dget d k) by (intros k; reflexivity).
  assert (H1 : c_rs c1 = None /\ c_rb c1 = None /\ dget (c_pam c1) "rs_function" = None /\ dget (c_pam c1) "rb_function" = None).
  { unfold carbon_init in E.
    pose proof (flat_spec d Wd) as SP.
    destruct (process_flat_carbon_parameters d) as [p1|] eqn:F; [|discriminate]. cbn [rbind] in E.
    destruct SP as (_ & W1 & SP).
    unfold carbon_cycle_init_pamsets in E.
    set (cc := cut_and_check_pamset carbon_required p1 carbon_used) in *.
    destruct (take_out_missing_spec cc) as [T|[T _]]; rewrite T in E; cbn [rbind] in E; [|discriminate].
    destruct (carbon_reset _ (Some cc)) as [c2|] eqn:R; [|discriminate]. cbn [rbind] in E.
    apply Ok_inj in E; rewrite <- E. cbn [c_rs c_rb c_pam].
    assert (Wcc : wf cc) by apply cut_and_check_wf.
    assert (Hcc : forall k, k = "rs_function" \/ k = "rb_function" -> dget cc k = None).
    { intros k Hk. unfold cc. rewrite cut_and_check_get; [|apply carbon_required_wf | exact W1].
      unfold spec_completed. rewrite SP, Hn. destruct Hk as [-> | ->]; reflexivity. }
    assert (Hcf : forall k, k = "rs_function" \/ k = "rb_function" -> flat_result_at cc k = None).
    { intros k Hk. unfold flat_result_at.
      assert (V : forall pre, In pre ["rb_coef"; "rb_tim"; "rs_coef"; "rs_tim"] -> fam_values cc pre = []).
      { intros pre Hpre. apply fam_values_none. intros k0 Hk0.
        apply dget_In_keys in Hk0. unfold dmem in Hk0. unfold cc in Hk0.
        rewrite cut_and_check_get in Hk0; [|apply carbon_required_wf | exact W1].
        unfold spec_completed in Hk0. rewrite SP, Hn in Hk0.
        destruct (flat_key pre k0) eqn:FK; [|reflexivity]. exfalso.
        destruct (dget carbon_required k0) eqn:CR.
        - assert (In k0 numeric_keys) by (apply dget_In_keys, dmem_true; eauto).
          destruct (numeric_key_plain k0 H0) as [Hp _]. rewrite (Hp pre Hpre) in FK. discriminate.
        - destruct (dget d k0) as [v|] eqn:DK; [|discriminate].
          apply dget_Some_In in DK. unfold d in DK. destruct DK as [DK|[]].
          apply (f_equal fst) in DK; cbn [fst] in DK; subst k0. vm_compute in CR. discriminate. }
      unfold fam_active. rewrite (V "rb_coef"), (V "rb_tim"), (V "rs_coef"), (V "rs_tim") by (simpl; tauto).
      cbn [andb]. apply Hcc, Hk. }
    assert (P0 : forall k, k = "rs_function" \/ k = "rb_function" -> dget (c_pam c2) k = None).
    { intros k Hk. rewrite (carbon_reset_fun _ cc c2 k Wcc R Hk), (Hcf k Hk). cbn [c_pam].
      rewrite dget_dset, dget_dupdate by exact Wcc. rewrite (Hcc k Hk).
      replace (String.eqb "years_tot" k) with false by (destruct Hk as [-> | ->]; reflexivity).
      rewrite cut_and_check_get; [|apply wf_lit; reflexivity|].
      2:{ unfold hp. destruct (env_forc_pert env); repeat apply wf_dset; apply check_pamset_wf. }
      unfold spec_completed. destruct Hk as [-> | ->]; cbn [dget window_required String.eqb Ascii.eqb Bool.eqb];
        destruct (dget hp _); reflexivity. }
    rewrite !P0 by tauto. auto. }
  destruct H1 as (A1 & A2 & A3 & A4).
  destruct (carbon_reset_rsrb c1 (Some d) c Wd H) as [B1 B2]; [congruence|congruence|].
  rewrite B1, B2.
  rewrite (carbon_reset_fun c1 d c "rs_function" Wd H (or_introl eq_refl)), (carbon_reset_fun c1 d c "rb_function" Wd H (or_intror eq_refl)).
  rewrite !Hn, A3, A4. auto.
Qed.
