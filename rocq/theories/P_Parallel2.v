From Coq Require Import Permutation.
From Verif Require Import PyBase PyBaseFacts Num M_Utils M_Flat M_Pams M_Gas M_Parallel Spec_Pams Spec_Parallel
  P_Pams P_Flat P_CarbonPams P_PamsDefaults P_PamsMain P_Parallel.

(** ** The concatenation over jobs *)
Lemma flat_map_flat_map {A B C} (f : B -> list C) (g : A -> list B) l :
  flat_map f (flat_map g l) = flat_map (fun x => flat_map f (g x)) l.
Proof. induction l as [|x r IH]; [reflexivity|]. cbn [flat_map]. rewrite flat_map_app, IH. reflexivity. Qed.
Lemma flat_map_map {A B C} (f : B -> list C) (g : A -> B) l : flat_map f (map g l) = flat_map (fun x => f (g x)) l.
Proof. induction l as [|x r IH]; [reflexivity|]. cbn [flat_map map]. rewrite IH. reflexivity. Qed.
Lemma flat_map_prod {A B C} (f : A * B -> list C) l1 l2 :
  flat_map f (list_prod l1 l2) = flat_map (fun a => flat_map (fun b => f (a, b)) l2) l1.
Proof.
  induction l1 as [|x r IH]; [reflexivity|]. cbn [flat_map list_prod]. rewrite flat_map_app, IH, flat_map_map. reflexivity.
Qed.
Lemma flat_map_ext_in {A B} (f g : A -> list B) l : (forall x, In x l -> f x = g x) -> flat_map f l = flat_map g l.
Proof. intros H. rewrite !flat_map_concat_map. f_equal. apply map_ext_in, H. Qed.

Lemma mapM_frames {B D} (f : B -> D) l : mapM frame_of (map (fun x => Value (f x)) l) = Ok (map f l).
Proof. induction l as [|x r IH]; [reflexivity|]. cbn [map mapM frame_of rbind]. rewrite IH. reflexivity. Qed.

Lemma pd_concat_ok {B} (l : list (list B)) : l <> [] -> pd_concat l = Ok (List.concat l).
Proof. destruct l; [congruence | reflexivity]. Qed.

Lemma c64_general {S C F} (execute : job S C -> result (list F)) rows orders scens cfgs vars mw :
  scens <> [] -> cfgs <> [] -> (1 <= mw)%Z ->
  (forall s bs, In s scens -> bs <> [] -> incl bs cfgs ->
     execute {| j_cfgs := bs; j_vars := vars; j_scen := s |} = Ok (flat_map (rows s) bs)) ->
  run_ciceroscm_parallel execute orders scens cfgs vars mw = Ok (flat_map (fun s => flat_map (rows s) cfgs) scens).
Proof.
  intros Hs Hc Hm He. unfold run_ciceroscm_parallel.
  destruct (c62 scens cfgs vars mw) as (jobs & Ej & Hh & Hv). rewrite Ej. cbn [rbind].
  pose proof (c62_sizes scens cfgs vars mw jobs Ej) as Sz. cbv zeta in Sz.
  assert (Lc : (0 < List.length cfgs)%nat) by (destruct cfgs; [congruence | simpl; lia]).
  assert (Ls : (0 < List.length scens)%nat) by (destruct scens; [congruence | simpl; lia]).
  assert (Hjobs : jobs <> []).
  { intros ->. cbn in Hh. destruct scens; [congruence|]. destruct cfgs; [congruence|]. discriminate. }
  assert (Hj : forall j, In j jobs -> execute j = Ok (flat_map (rows (j_scen j)) (j_cfgs j))).
  { intros j Hin. assert (Hne : j_cfgs j <> []).
    { destruct (Z_le_gt_dec mw (Z.of_nat (List.length scens))) as [L|L].
      - destruct (proj1 Sz (or_introl L)) as [_ Q]. rewrite (Q j Hin). exact Hc.
      - destruct (Z_lt_le_dec (Z.of_nat (List.length cfgs * List.length scens)) mw) as [L2|L2].
        + destruct (proj1 Sz (or_intror L2)) as [_ Q]. rewrite (Q j Hin). exact Hc.
        + destruct (proj2 Sz ltac:(lia)) as [_ Q]. destruct (Q j Hin) as [Q1 _]. destruct (j_cfgs j); [simpl in Q1; lia | discriminate]. }
    assert (Hp : forall c, In c (j_cfgs j) -> In (j_scen j, c) (list_prod scens cfgs)).
    { intros c Hcin. rewrite <- Hh. unfold handed_out. apply in_flat_map. exists j. split; [exact Hin|]. apply in_map, Hcin. }
    pose proof (Hv j Hin) as Hvj. destruct j as [bs vs s]. cbn [j_cfgs j_vars j_scen] in *. subst vs.
    apply He; [|exact Hne|].
    - destruct bs as [|c r]; [congruence|]. apply (proj1 (in_prod_iff scens cfgs s c)), Hp; left; reflexivity.
    - intros c Hcin. apply (proj1 (in_prod_iff scens cfgs s c)), Hp, Hcin. }
  assert (Hcat : List.concat (map (fun j => flat_map (rows (j_scen j)) (j_cfgs j)) jobs) =
                 flat_map (fun s => flat_map (rows s) cfgs) scens).
  { rewrite <- flat_map_concat_map. rewrite <- (flat_map_prod (fun p => rows (fst p) (snd p))), <- Hh.
    unfold handed_out. rewrite flat_map_flat_map. apply flat_map_ext_in. intros j _. rewrite flat_map_map. reflexivity. }
  assert (Hne : map (fun j => flat_map (rows (j_scen j)) (j_cfgs j)) jobs <> []) by (destruct jobs; [congruence | discriminate]).
  destruct (Z.eqb_spec mw 1) as [_|_].
  - rewrite (mapM_ok execute _ jobs Hj). cbn [rbind]. rewrite pd_concat_ok by exact Hne. rewrite Hcat. reflexivity.
  - destruct (Z.leb_spec mw 0) as [L|L]; [lia|]. destruct orders as [o1 o2].
    rewrite (c63_order (fun _ => execute) jobs o1 o2 true FRONT_SERIAL FRONT_PARALLEL _ Hj). cbn [rbind].
    rewrite mapM_frames. cbn [rbind]. rewrite pd_concat_ok by exact Hne. rewrite Hcat. reflexivity.
Qed.

(** ** Parameters along a history *)
Section Uniform.
Context {C : Type}.
Lemma last_num_none (f : C -> option (dict pyval)) k v0 l : (forall c, In c l -> number_given (f c) k = None) ->
  spec_last_num k v0 (map f l) = v0.
Proof.
  induction l as [|c r IH]; intros H; [reflexivity|]. cbn [map spec_last_num].
  assert (E : match f c with Some d => match dget d k with Some v => if is_num v then v else v0 | None => v0 end | None => v0 end = v0).
  { specialize (H c (or_introl eq_refl)). unfold number_given, given in H. destruct (f c) as [d|]; [|reflexivity].
    destruct (dget d k) as [v|]; [|reflexivity]. destruct (is_num v); [discriminate | reflexivity]. }
  rewrite E. apply IH. intros x Hx. apply H. right; exact Hx.
Qed.
Lemma last_num_same (f : C -> option (dict pyval)) k v0 l :
  (forall c v, In c l -> number_given (f c) k = Some v -> v = v0) -> spec_last_num k v0 (map f l) = v0.
Proof.
  induction l as [|c r IH]; intros H; [reflexivity|]. cbn [map spec_last_num].
  assert (E : match f c with Some d => match dget d k with Some v => if is_num v then v else v0 | None => v0 end | None => v0 end = v0).
  { specialize (H c). unfold number_given, given in H. destruct (f c) as [d|]; [|reflexivity].
    destruct (dget d k) as [v|]; [|reflexivity]. destruct (is_num v); [|reflexivity]. apply H; [left; reflexivity | reflexivity]. }
  rewrite E. apply IH. intros x v Hx. apply H. right; exact Hx.
Qed.
Lemma last_num_app k l : forall v0 p, spec_last_num k v0 (l ++ [p]) = num_or p k (spec_last_num k v0 l).
Proof.
  induction l as [|q r IH]; intros v0 p; cbn [app spec_last_num]; [|apply IH].
  unfold num_or, given. destruct p as [d|]; [|reflexivity]. destruct (dget d k) as [v|]; [|reflexivity]. reflexivity.
Qed.
Lemma last_fun_app k l : forall v0 p, spec_last_fun k v0 (l ++ [p]) = match fun_of p k with Some v => Some v | None => spec_last_fun k v0 l end.
Proof. induction l as [|q r IH]; intros v0 p; cbn [app spec_last_fun]; [reflexivity | apply IH]. Qed.
Lemma last_fun_none (f : C -> option (dict pyval)) k l : forall v0, (forall c, In c l -> fun_of (f c) k = None) ->
  spec_last_fun k v0 (map f l) = v0.
Proof.
  induction l as [|c r IH]; intros v0 H; [reflexivity|]. cbn [map spec_last_fun]. rewrite (H c (or_introl eq_refl)).
  apply IH. intros x Hx. apply H. right; exact Hx.
Qed.
Lemma last_any_app k l : forall v0 p, spec_last_any k v0 (l ++ [p]) = match given p k with Some v => Some v | None => spec_last_any k v0 l end.
Proof.
  induction l as [|q r IH]; intros v0 p; cbn [app spec_last_any]; [|apply IH].
  unfold given. destruct p as [d|]; [|reflexivity]. destruct (dget d k); reflexivity.
Qed.
Lemma last_any_none (f : C -> option (dict pyval)) k l : forall v0, (forall c, In c l -> given (f c) k = None) ->
  spec_last_any k v0 (map f l) = v0.
Proof.
  induction l as [|c r IH]; intros v0 H; [reflexivity|]. cbn [map spec_last_any].
  pose proof (H c (or_introl eq_refl)) as H0. unfold given in H0. destruct (f c) as [d|]; [rewrite H0|];
    apply IH; intros x Hx; apply H; right; exact Hx.
Qed.
End Uniform.

(** ** The handler's parameters *)
Definition windows : list string := ["idtm"; "nystart"; "nyend"; "emstart"].
Lemma used_names k : dmem handler_used k = true ->
  In k ["lifetime_mode"; "just_one"; "carbon_cycle_model"] \/ In k windows.
Proof.
  intros H. apply dget_In_keys in H. unfold windows. cbn in H. cbn [In]. tauto.
Qed.
Lemma check_ccm p : opt_wf p -> dget (check_pamset p) "carbon_cycle_model" <> None.
Proof.
  intros H. rewrite check_pamset_get by exact H. unfold spec_completed.
  replace (dget handler_required "carbon_cycle_model") with (@None pyval) by reflexivity.
  assert (M : dmem (check_pamset_caller p) "carbon_cycle_model" = true).
  { unfold check_pamset_caller. set (q := if dmem _ "lifetime_mode" then _ else _).
    destruct (dmem q "carbon_cycle_model") eqn:E; [exact E|]. apply dmem_true. eexists. apply dget_dset_eq. }
  apply dmem_true in M. destruct M as [v ->]. discriminate.
Qed.
Lemma check_none p q k : opt_wf p -> opt_wf q -> k <> "just_one" -> dget (check_pamset p) k = None ->
  dget (check_pamset q) k = None.
Proof.
  intros Hp Hq Hj H. rewrite check_pamset_get in * by assumption. unfold spec_completed in *.
  destruct (dget handler_required k) as [d|] eqn:R; [destruct (dget (check_pamset_caller p) k); discriminate|].
  destruct (dmem handler_used k) eqn:U.
  - exfalso. destruct (used_names k U) as [N|N].
    + destruct N as [<-|[<-|[<-|[]]]]; [|congruence|].
      * rewrite check_pamset_caller_lifetime in H. discriminate.
      * apply (check_ccm p Hp). rewrite check_pamset_get by exact Hp. unfold spec_completed. rewrite R, U. exact H.
    + destruct (window_req_num k N) as [d [E _]]. congruence.
  - destruct (dget (check_pamset_caller q) k); reflexivity.
Qed.

Lemma rerun_plain env cur p d k : opt_wf p -> hinv cur -> handler_rerun env cur p = Ok d ->
  ~ In k windows -> k <> "conc_run" -> k <> "qdirso2" -> k <> "qbc" -> k <> "qoc" ->
  dget d k = match dget (check_pamset p) k with Some v => Some v | None => dget cur k end.
Proof.
  intros Hp Hi H Hw Hc H1 H2 H3. rewrite (handler_rerun_get env cur p d Hp Hi H k H1 H2 H3).
  replace (smem k pams_cant_change) with false; [reflexivity|]. symmetry. destruct (smem k pams_cant_change) eqn:E; [|reflexivity].
  apply smem_In in E. exfalso. cbn in E. unfold windows in Hw. cbn in Hw. intuition congruence.
Qed.

Opaque handler_rerun check_pamset check_pamset_caller handler_required handler_used.
Lemma reruns_untouched env p k hist : opt_wf p -> k <> "just_one" -> dget (check_pamset p) k = None ->
  k <> "conc_run" -> k <> "qdirso2" -> k <> "qbc" -> k <> "qoc" ->
  forall cur d, Forall opt_wf hist -> hinv cur -> handler_reruns env cur hist = Ok d -> dget d k = dget cur k.
Proof.
  intros Hp Hj Hn Hc H1 H2 H3.
  assert (Hw : ~ In k windows).
  { intros W. destruct (window_req_num k W) as [dd [E _]]. rewrite (check_pamset_required p k dd Hp E) in Hn. discriminate. }
  induction hist as [|q r IH]; intros cur d Hf Hi H; cbn [handler_reruns] in H; [injection H as <-; reflexivity|].
  inversion Hf as [|? ? Hq Hr]; subst. destruct (handler_rerun env cur q) as [c|] eqn:E; [|discriminate]. cbn [rbind] in H.
  rewrite (IH c d Hr (handler_rerun_inv env cur q c Hq Hi E) H).
  rewrite (rerun_plain env cur q c k Hq Hi E Hw Hc H1 H2 H3), (check_none p q k Hp Hq Hj Hn). reflexivity.
Qed.

Lemma handler_same env init (cs : list config) p d d0 : opt_wf init ->
  (forall c, In c cs -> opt_wf (cf_emiconc c)) -> opt_wf p ->
  given p "just_one" <> None \/ (forall c, In c cs -> given (cf_emiconc c) "just_one" = None) ->
  handler_reruns env (handler_init env init) (map cf_emiconc cs ++ [p]) = Ok d ->
  handler_rerun env (handler_init env init) p = Ok d0 ->
  (forall k, ~ In k windows -> dget d k = dget d0 k) /\ (forall k, In k windows -> alike (dget d k) (dget d0 k)).
Proof.
  intros Hi Hcs Hp Hu H H0.
  assert (Hf : Forall opt_wf (map cf_emiconc cs)).
  { apply Forall_forall. intros x Hx. apply in_map_iff in Hx. destruct Hx as [c [<- Hc]]. apply Hcs, Hc. }
  assert (Hf' : Forall opt_wf (map cf_emiconc cs ++ [p])) by (apply Forall_app; split; [exact Hf | repeat constructor; exact Hp]).
  assert (H0' : handler_reruns env (handler_init env init) [p] = Ok d0) by (cbn [handler_reruns]; rewrite H0; reflexivity).
  pose proof (handler_init_inv env init Hi) as I0.
  split.
  - intros k Hw.
    destruct (string_dec k "conc_run") as [->|Hc].
    { rewrite (conc_run_invariant env _ _ d Hf' I0 H). rewrite (conc_run_invariant env [p] _ d0 ltac:(repeat constructor; exact Hp) I0 H0'). reflexivity. }
    pose proof (handler_reruns_snoc env (map cf_emiconc cs) p (handler_init env init)) as Sn. rewrite H in Sn.
    destruct (handler_reruns env (handler_init env init) (map cf_emiconc cs)) as [cur|] eqn:Ec; [|discriminate]. cbn [rbind] in Sn.
    symmetry in Sn. pose proof (handler_reruns_inv env _ _ cur Hf I0 Ec) as Ic.
    destruct (string_dec k "qdirso2") as [->|H1].
    { rewrite (handler_rerun_regional env cur p d "SO2" "qdirso2" Hp Ic Sn) by (cbn; tauto).
      rewrite (handler_rerun_regional env _ p d0 "SO2" "qdirso2" Hp I0 H0) by (cbn; tauto). reflexivity. }
    destruct (string_dec k "qbc") as [->|H2].
    { rewrite (handler_rerun_regional env cur p d "BC" "qbc" Hp Ic Sn) by (cbn; tauto).
      rewrite (handler_rerun_regional env _ p d0 "BC" "qbc" Hp I0 H0) by (cbn; tauto). reflexivity. }
    destruct (string_dec k "qoc") as [->|H3].
    { rewrite (handler_rerun_regional env cur p d "OC" "qoc" Hp Ic Sn) by (cbn; tauto).
      rewrite (handler_rerun_regional env _ p d0 "OC" "qoc" Hp I0 H0) by (cbn; tauto). reflexivity. }
    rewrite (rerun_plain env cur p d k Hp Ic Sn Hw Hc H1 H2 H3), (rerun_plain env _ p d0 k Hp I0 H0 Hw Hc H1 H2 H3).
    destruct (dget (check_pamset p) k) as [v|] eqn:Ck; [reflexivity|].
    destruct (string_dec k "just_one") as [->|Hj].
    + rewrite (just_one_history env init _ cur Hi Hf Ec).
      pose proof (just_one_history env init [] (handler_init env init) Hi ltac:(constructor) eq_refl) as J0. rewrite J0.
      rewrite check_pamset_just_one in Ck by exact Hp. destruct Hu as [Hu|Hu]; [congruence|].
      cbn [spec_last_any]. apply last_any_none. exact Hu.
    + apply (reruns_untouched env p k (map cf_emiconc cs) Hp Hj Ck Hc H1 H2 H3 _ cur Hf I0 Ec).
  - intros k Hw. destruct (proj1 (c04_window env init _ d Hi Hf' H) k Hw) as (v & w & Ew & Ev & Sv).
    destruct (proj1 (c04_window env init [p] d0 Hi ltac:(repeat constructor; exact Hp) H0') k Hw) as (v0 & w0 & Ew0 & Ev0 & Sv0).
    rewrite Ew in Ew0. injection Ew0 as <-. exists v, v0, w. repeat split; assumption.
Qed.

(** ** The carbon cycle's parameters *)
Lemma carbon_reset_other c p c' k : opt_wf p -> carbon_reset c p = Ok c' -> ~ In k numeric_keys ->
  k <> "rs_function" -> k <> "rb_function" -> dget (c_pam c') k = dget (c_pam c) k.
Proof.
  intros Hp H Hk H1 H2. destruct p as [p0|]; [|rewrite (carbon_reset_none _ _ H); reflexivity].
  unfold carbon_reset in H. destruct (process_flat_carbon_parameters p0) as [p1|] eqn:F; [|discriminate]. cbn [rbind] in H.
  apply Ok_inj in H; rewrite <- H. cbn [c_pam]. rewrite funs_fold_get.
  replace (String.eqb k "rs_function") with false by (symmetry; apply String.eqb_neq; exact H1).
  replace (String.eqb k "rb_function") with false by (symmetry; apply String.eqb_neq; exact H2). cbn [orb].
  rewrite upd_get by exact (flat_wf _ _ Hp F). unfold spec_updated.
  destruct (dget (c_pam c) k); [|reflexivity]. destruct (dget p1 k) as [w|]; [|reflexivity].
  replace (smem k (dkeys carbon_required)) with false; [reflexivity|].
  symmetry. destruct (smem k (dkeys carbon_required)) eqn:E; [|reflexivity]. apply smem_In in E. contradiction.
Qed.
Lemma carbon_resets_other hist k : ~ In k numeric_keys -> k <> "rs_function" -> k <> "rb_function" ->
  forall c c', Forall opt_wf hist -> carbon_resets c hist = Ok c' -> dget (c_pam c') k = dget (c_pam c) k.
Proof.
  intros Hk H1 H2. induction hist as [|p r IH]; intros c c' Hf H; cbn [carbon_resets] in H; [injection H as <-; reflexivity|].
  inversion Hf as [|? ? Hp Hr]; subst. destruct (carbon_reset c p) as [c1|] eqn:E; [|discriminate]. cbn [rbind] in H.
  rewrite (IH c1 c' Hr H). exact (carbon_reset_other c p c1 k Hp E Hk H1 H2).
Qed.
Lemma carbon_resets_snoc hist p : forall c, carbon_resets c (hist ++ [p]) = rbind (carbon_resets c hist) (fun d => carbon_reset d p).
Proof.
  induction hist as [|q r IH]; intros c; cbn [app carbon_resets].
  - cbn [rbind]. destruct (carbon_reset c p); reflexivity.
  - destruct (carbon_reset c q); cbn [rbind]; [apply IH | reflexivity].
Qed.

(** What construction guarantees. *)
Definition carbon_ready (c : carbon_state) : Prop :=
  (forall k, In k numeric_keys -> exists v, dget (c_pam c) k = Some v) /\
  c_rs c = dget (c_pam c) "rs_function" /\ c_rb c = dget (c_pam c) "rb_function".
Opaque carbon_reset carbon_cycle_init_pamsets process_flat_carbon_parameters driver_emiconc carbon_required carbon_used.
Lemma driver_carbon_ready env cfg preind c : driver_carbon env cfg preind = Ok c -> carbon_ready c.
Proof.
  unfold driver_carbon, handler_carbon. intros H.
  set (pc := dset [] "preindustrial_co2_conc" preind) in *.
  match type of H with rbind (carbon_init ?e _) _ = _ => set (hp := e) in * end.
  destruct (carbon_init hp (Some pc)) as [c1|] eqn:E; [|discriminate]. cbn [rbind] in H.
  assert (Wd : wf pc) by (apply wf_dset, wf_nil).
  assert (R1 : c_rs c1 = dget (c_pam c1) "rs_function" /\ c_rb c1 = dget (c_pam c1) "rb_function").
  { unfold carbon_init in E. destruct (process_flat_carbon_parameters pc) as [x|]; [|discriminate]. cbn [rbind] in E.
    destruct (carbon_cycle_init_pamsets hp (Some x) carbon_required (Some carbon_used)) as [[a b]|]; [|discriminate]. cbn [rbind] in E.
    destruct (carbon_reset _ (Some b)) as [c2|]; [|discriminate]. cbn [rbind] in E. apply Ok_inj in E. rewrite <- E.
    cbn [c_pam c_rs c_rb]. auto. }
  split.
  - intros k Hk. rewrite (carbon_reset_num c1 pc c k Wd H Hk). unfold spec_updated.
    assert (D : exists dflt, dget carbon_required k = Some dflt) by (apply dmem_true, dget_In_keys; exact Hk).
    destruct D as [dflt D]. rewrite (carbon_init_num hp pc c1 k dflt Wd E D). destruct (dget pc k); eauto.
  - exact (carbon_reset_rsrb c1 (Some pc) c Wd H (proj1 R1) (proj2 R1)).
Qed.

Transparent carbon_reset.
Lemma fun_of_given p k c c' : opt_wf p -> carbon_reset c p = Ok c' -> fun_of p k = decay_given p k.
Proof.
  intros Hp H. destruct p as [d|]; [|reflexivity]. unfold fun_of, decay_given, carbon_reset in *.
  pose proof (flat_spec d Hp) as S. destruct (process_flat_carbon_parameters d) as [p1|]; [|discriminate].
  symmetry. apply S.
Qed.

Opaque carbon_reset.
Lemma carbon_same c0 cs p c' c1 : carbon_ready c0 ->
  (forall c, In c cs -> opt_wf (cf_carbon c)) -> opt_wf p ->
  (forall k, In k numeric_keys -> number_given p k <> None \/ forall c, In c cs -> number_given (cf_carbon c) k = None) ->
  (forall k, In k ["rs_function"; "rb_function"] ->
     decay_given p k <> None \/ forall c, In c cs -> decay_given (cf_carbon c) k = None) ->
  (forall c v, In c cs -> number_given (cf_carbon c) "preindustrial_co2_conc" = Some v ->
     dget (c_pam c0) "preindustrial_co2_conc" = Some v) ->
  carbon_resets c0 (map cf_carbon cs ++ [p]) = Ok c' -> carbon_reset c0 p = Ok c1 ->
  (forall k, dget (c_pam c') k = dget (c_pam c1) k) /\ c_x0 c' = c_x0 c1 /\ c_rs c' = c_rs c1 /\ c_rb c' = c_rb c1.
Proof.
  intros (Rk & Rs & Rb) Hcs Hp Hu Hd Hpre H H1.
  assert (Hf : Forall opt_wf (map cf_carbon cs)).
  { apply Forall_forall. intros x Hx. apply in_map_iff in Hx. destruct Hx as [c [<- Hc]]. apply Hcs, Hc. }
  assert (Hf' : Forall opt_wf (map cf_carbon cs ++ [p])) by (apply Forall_app; split; [exact Hf | repeat constructor; exact Hp]).
  assert (H1' : carbon_resets c0 [p] = Ok c1) by (cbn [carbon_resets]; rewrite H1; reflexivity).
  assert (Hf1 : Forall opt_wf [p]) by (repeat constructor; exact Hp).
  assert (Kp : In "preindustrial_co2_conc" numeric_keys) by (apply smem_In; reflexivity).
  (* decay functions of the configurations *)
  assert (Hfun : forall k, In k ["rs_function"; "rb_function"] -> fun_of p k <> None \/ forall c, In c cs -> fun_of (cf_carbon c) k = None).
  { intros k Hk. rewrite (fun_of_given p k c0 c1 Hp H1). destruct (Hd k Hk) as [G|G]; [left; exact G|right].
    assert (Q : forall l c a, carbon_resets a (map cf_carbon l ++ [p]) = Ok c' -> (forall c, In c l -> opt_wf (cf_carbon c)) -> In c l ->
                fun_of (cf_carbon c) k = decay_given (cf_carbon c) k).
    { clear - Hp. induction l as [|x r IH]; intros c a Hr Hw Hin; [destruct Hin|]. cbn [map app carbon_resets] in Hr.
      destruct (carbon_reset a (cf_carbon x)) as [a1|] eqn:E; [|discriminate]. cbn [rbind] in Hr.
      destruct Hin as [<-|Hin]; [exact (fun_of_given _ k a a1 (Hw x (or_introl eq_refl)) E)|].
      apply (IH c a1 Hr); [intros y Hy; apply Hw; right; exact Hy | exact Hin]. }
    intros c Hc. rewrite (Q cs c c0 H Hcs Hc). apply G, Hc. }
  assert (Hfk : forall k, k = "rs_function" \/ k = "rb_function" -> dget (c_pam c') k = dget (c_pam c1) k).
  { intros k Hk. rewrite (carbon_resets_fun _ c0 c' k Hf' H Hk), (carbon_resets_fun _ c0 c1 k Hf1 H1' Hk).
    rewrite last_fun_app. cbn [spec_last_fun].
    destruct (Hfun k) as [G|G]; [cbn; destruct Hk; auto| |].
    - destruct (fun_of p k); [reflexivity | congruence].
    - rewrite last_fun_none by exact G. reflexivity. }
  split; [|split].
  - intros k. destruct (in_dec string_dec k numeric_keys) as [Hk|Hk].
    + destruct (Rk k Hk) as [v0 V0].
      rewrite (carbon_resets_num _ c0 c' k v0 Hf' H Hk V0), (carbon_resets_num _ c0 c1 k v0 Hf1 H1' Hk V0).
      f_equal. rewrite last_num_app. change [p] with ([] ++ [p]). rewrite last_num_app. cbn [spec_last_num].
      destruct (Hu k Hk) as [G|G].
      * unfold num_or. unfold number_given in G. destruct (given p k) as [v|]; [|congruence]. destruct (is_num v); [reflexivity | congruence].
      * rewrite last_num_none by exact G. reflexivity.
    + destruct (string_dec k "rs_function") as [E|E]; [apply Hfk; left; exact E|].
      destruct (string_dec k "rb_function") as [E2|E2]; [apply Hfk; right; exact E2|].
      rewrite (carbon_resets_other _ k Hk E E2 c0 c' Hf' H), (carbon_resets_other _ k Hk E E2 c0 c1 Hf1 H1'). reflexivity.
  - rewrite (carbon_reset_x0 c0 p c1 H1). rewrite carbon_resets_snoc in H.
    destruct (carbon_resets c0 (map cf_carbon cs)) as [cm|] eqn:Em; [|discriminate]. cbn [rbind] in H.
    rewrite (carbon_reset_x0 cm p c' H). destruct (Rk _ Kp) as [v0 V0].
    rewrite (carbon_resets_num _ c0 cm _ v0 Hf Em Kp V0), V0. f_equal. apply last_num_same.
    intros c v Hc Hv. specialize (Hpre c v Hc Hv). congruence.
  - destruct (carbon_resets_rsrb _ c0 c' Hf' H Rs Rb) as [A1 A2]. destruct (carbon_resets_rsrb _ c0 c1 Hf1 H1' Rs Rb) as [B1 B2].
    rewrite A1, A2, B1, B2, !Hfk by auto. auto.
Qed.
