(** * P_DistroRun: rows of a job (C107), configurations of a distribution do not rely on each other (C108) *)
From Coq Require Import Lia.
From Verif Require Import PyBase PyBaseFacts M_Pams M_Gas M_Utils M_Flat M_Parallel M_Distro M_DistroRun Spec_Pams Spec_Parallel Spec_Distro Spec_Numbers Spec_WholeBox Spec_DistroRun P_Distro P_WholeBox.
From Verif Require P_Reading5 P_Reader.

Section Rows.
Context {V W I : Type}.
Variable construct : dict pyval -> result I.
Variable writer : pyval -> pyval -> pyval -> result W.
Variable cscm_run : I -> option (dict pyval) -> option (dict pyval) -> option (dict pyval) -> result I.
Variable timeseries : pyval -> pyval -> I -> string -> W -> result (option (list Z) * list V * string).
Lemma make_row_is (w : wrapper W I) ix v u ys (ts : list V) row : make_row w ix v u ys ts = Ok row ->
  w_model w = w_scen w -> List.length ys = List.length ts /\ row = expected_row (w_scen w) ix v u ys ts.
Proof.
  unfold make_row. cbv zeta. cbn [app List.length]. rewrite !map_length. destruct (Nat.eqb _ _) eqn:E; [|discriminate]. intros H M. apply Nat.eqb_eq in E.
  inversion H; subst row. split; [lia|]. unfold expected_row. rewrite M. cbn [app combine]. do 7 f_equal.
  assert (L : List.length ys = List.length ts) by lia. clear - L. revert ts L. induction ys as [|y ys IH]; intros [|t ts] L; try discriminate L; [reflexivity|].
  cbn [map combine fst snd]. f_equal. apply IH. cbn in L. lia.
Qed.
Lemma variable_rows_is (w : wrapper W I) c vars : forall rows, variable_rows timeseries w (cf_index c) vars = Ok rows -> w_model w = w_scen w ->
  in_turn (rows_of_variable timeseries (w_start w) (w_end w) (w_scen w) (w_getter w) c (w_cscm w)) vars rows.
Proof.
  induction vars as [|v vars IH]; intros rows H M; cbn [variable_rows] in H; [inversion H; constructor|].
  destruct (timeseries _ _ _ v _) as [[[ys ts] u]|] eqn:E; cbn [rbind] in H; [|discriminate].
  destruct ys as [ys|].
  - destruct (String.eqb_spec u "NoUnit") as [U|U].
    + change rows with ([] ++ rows). constructor; [|apply IH; assumption]. exists (Some ys), ts, u. split; [exact E|left; auto].
    + destruct (cf_index c) as [ix|] eqn:IX; [|discriminate]. destruct (make_row w ix v u ys ts) as [row|] eqn:MR; cbn [rbind] in H; [|discriminate].
      destruct (variable_rows timeseries w (Some ix) vars) as [rest|] eqn:VR; cbn [rbind] in H; [|discriminate]. inversion H; subst rows.
      destruct (make_row_is _ _ _ _ _ _ _ MR M) as [L ->]. change (expected_row (w_scen w) ix v u ys ts :: rest) with ([expected_row (w_scen w) ix v u ys ts] ++ rest).
      apply turn_more; [|apply IH; [|exact M]]. 2:{ reflexivity. } exists (Some ys), ts, u. split; [exact E|right; eauto 6].
  - change rows with ([] ++ rows). constructor; [|apply IH; assumption]. exists None, ts, u. auto.
Qed.
Lemma cfg_rows_is vars cfgs : forall (w : wrapper W I) rows, cfg_rows cscm_run timeseries w cfgs vars = Ok rows -> w_model w = w_scen w ->
  exists ms, one_after_the_other cscm_run (w_cscm w) cfgs ms /\ rows_of_job timeseries (w_start w) (w_end w) (w_scen w) (w_getter w) vars cfgs ms rows.
Proof.
  induction cfgs as [|c cfgs IH]; intros w rows H M; cbn [cfg_rows] in H; [inversion H; exists []; split; [exact Logic.I|constructor]|].
  destruct (cscm_run _ _ _ _) as [m|] eqn:E; cbn [rbind] in H; [|discriminate]. cbv zeta in H.
  destruct (variable_rows _ _ _ _) as [r1|] eqn:VR; cbn [rbind] in H; [|discriminate]. destruct (cfg_rows _ _ _ _ _) as [r2|] eqn:CR; cbn [rbind] in H; [|discriminate].
  inversion H; subst rows. destruct (IH _ _ CR M) as [ms [A B]]. exists (m :: ms). split; [split; assumption|]. unfold rows_of_job. cbn [combine].
  constructor; [|exact B]. cbn [fst snd]. apply variable_rows_is in VR; [exact VR|exact M].
Qed.
Lemma c107 j rows : execute_run construct writer cscm_run timeseries j = Ok rows ->
  let scen := check_numeric_pamset [("nystart", VInt 1750); ("nyend", VInt 2100); ("emstart", VInt 1850)] (j_scen j) in
  exists st en gas name g m0 ms, dget scen "nystart" = Some st /\ dget scen "nyend" = Some en /\
    (dget scen "gaspam_file" = Some gas \/ (dget scen "gaspam_file" = None /\ dget scen "gaspam_data" = Some gas)) /\ dget scen "scenname" = Some name /\
    writer gas st en = Ok g /\ construct scen = Ok m0 /\ one_after_the_other cscm_run m0 (j_cfgs j) ms /\
    rows_of_job timeseries st en name g (j_vars j) (j_cfgs j) ms rows /\ rows <> [].
Proof.
  unfold execute_run. intros H. cbv zeta. change [("nystart", VInt 1750); ("nyend", VInt 2100); ("emstart", VInt 1850)] with window_default.
  destruct (wrapper_init construct writer (check_numeric_pamset window_default (j_scen j))) as [w|] eqn:WI; cbn [rbind] in H; [|discriminate].
  set (scen := check_numeric_pamset window_default (j_scen j)) in *. unfold wrapper_init, item_of in WI.
  destruct (dget scen "nystart") as [st|]; cbn [rbind] in WI; [|discriminate]. destruct (dget scen "nyend") as [en|]; cbn [rbind] in WI; [|discriminate].
  destruct (if dmem scen "gaspam_file" then _ else _) as [gas|] eqn:G; cbn [rbind] in WI; [|discriminate].
  destruct (writer gas st en) as [g|] eqn:WR; cbn [rbind] in WI; [|discriminate]. destruct (construct scen) as [m0|]; cbn [rbind] in WI; [|discriminate].
  destruct (dget scen "scenname") as [name|]; cbn [rbind] in WI; [|discriminate]. inversion WI; subst w. clear WI.
  unfold run_over_cfgs in H. destruct (cfg_rows _ _ _ _ _) as [rs|] eqn:CR; cbn [rbind] in H; [|discriminate].
  destruct (cfg_rows_is _ _ _ _ CR eq_refl) as [ms [A B]]. cbn [w_cscm w_start w_end w_scen w_getter] in A, B.
  exists st, en, gas, name, g, m0, ms. split; [reflexivity|]. split; [reflexivity|]. split.
  { unfold dmem in G. destruct (dget scen "gaspam_file"); [left; congruence|right; split; [reflexivity|]]. destruct (dget scen "gaspam_data"); congruence. }
  split; [reflexivity|]. split; [exact WR|]. split; [reflexivity|]. destruct rs; inversion H; subst rows. split; [exact A|]. split; [exact B|discriminate].
Qed.
End Rows.

(** ** Parameter sets with the same names *)
Definition vr (a b : pyval) : Prop := a = b \/ (is_num a = true /\ is_num b = true) \/ (exists x y x' y', a = VFun x y /\ b = VFun x' y').
Definition sim (d1 d2 : dict pyval) : Prop := Forall2 (fun x y => fst x = fst y /\ vr (snd x) (snd y)) d1 d2.
Lemma sim_refl d : sim d d.
Proof. induction d; constructor; [split; [reflexivity|left; reflexivity]|assumption]. Qed.
Lemma sim_keys d1 d2 : sim d1 d2 -> dkeys d1 = dkeys d2.
Proof. intros H. unfold dkeys. induction H as [|x y l m [E _] H IH]; cbn; [reflexivity|congruence]. Qed.
Lemma sim_get d1 d2 k : sim d1 d2 -> (dget d1 k = None /\ dget d2 k = None) \/ exists a b, dget d1 k = Some a /\ dget d2 k = Some b /\ vr a b.
Proof.
  intros H. induction H as [|[k1 v1] [k2 v2] l m [E R] H IH]; cbn [dget fst snd] in *; [left; auto|]. subst k2.
  destruct (String.eqb k1 k); [right; eauto|exact IH].
Qed.
Lemma sim_set d1 d2 k a b : sim d1 d2 -> vr a b -> sim (dset d1 k a) (dset d2 k b).
Proof.
  intros H R. induction H as [|[k1 v1] [k2 v2] l m [E Q] H IH]; cbn [dset fst snd] in *; [constructor; [split; [reflexivity|exact R]|constructor]|]. subst k2.
  destruct (String.eqb k1 k); constructor; auto.
Qed.
Lemma sim_del d1 d2 k : sim d1 d2 -> sim (ddel d1 k) (ddel d2 k).
Proof.
  intros H. unfold ddel. induction H as [|[k1 v1] [k2 v2] l m [E Q] H IH]; cbn in *; [constructor|]. subst k2. destruct (String.eqb k1 k); cbn; auto. constructor; auto.
Qed.
Lemma vr_opt a b : vr a b -> (opt_of_val a = None /\ opt_of_val b = None) \/ (opt_of_val a = Some a /\ opt_of_val b = Some b).
Proof.
  intros [->|[[A B]|[x [y [x' [y' [-> ->]]]]]]]; [destruct b; auto|destruct a, b; try discriminate; auto|auto].
Qed.
Definition shape (l m : list (option pyval)) : Prop := Forall2 (fun a b => a = None <-> b = None) l m.
Lemma shape_put i a b : (a = None <-> b = None) -> forall l m, shape l m -> shape (put_at l i a) (put_at m i b).
Proof.
  intros R. induction i as [|i IH]; intros l m H; destruct H as [|x y l m X H]; cbn [put_at].
  - constructor; [exact R|constructor].
  - constructor; [exact R|exact H].
  - constructor; [tauto|]. apply IH. constructor.
  - constructor; [exact X|]. apply IH. exact H.
Qed.
Lemma shape_compact l m : shape l m -> List.length (compact l) = List.length (compact m).
Proof. intros H. induction H as [|[a|] [b|] l m X H IH]; cbn [compact List.length]; auto; destruct X as [X1 X2]; [discriminate X2|discriminate X1]; reflexivity. Qed.
Lemma sim_extract d1 d2 p : sim d1 d2 ->
  List.length (fst (extract_indexed_parameters d1 p)) = List.length (fst (extract_indexed_parameters d2 p)) /\
  snd (extract_indexed_parameters d1 p) = snd (extract_indexed_parameters d2 p).
Proof.
  intros H. unfold extract_indexed_parameters.
  match goal with |- context [fold_left ?f d1 ([], [])] =>
    assert (G : forall v1 v2 ks, shape v1 v2 -> shape (fst (fold_left f d1 (v1, ks))) (fst (fold_left f d2 (v2, ks))) /\ snd (fold_left f d1 (v1, ks)) = snd (fold_left f d2 (v2, ks))) end.
  { induction H as [|[k1 a] [k2 b] l m [E R] H IH]; intros v1 v2 ks S; cbn [fold_left]; [auto|]. cbn [fst snd] in *. subst k2. destruct (flat_key p k1); [|apply IH; exact S].
    apply IH. apply shape_put; [|exact S]. destruct (vr_opt a b R) as [[-> ->]|[-> ->]]; [tauto|split; discriminate]. }
  specialize (G [] [] [] ltac:(constructor)). destruct (fold_left _ d1 _) as [v1 k1], (fold_left _ d2 _) as [v2 k2]. cbn [fst snd] in *. destruct G as [G ->]. split; [apply shape_compact, G|reflexivity].
Qed.
Definition simr (a b : result (dict pyval * list string)) : Prop :=
  match a, b with Ok (d1, k1), Ok (d2, k2) => sim d1 d2 /\ k1 = k2 | Err _, Err _ => True | _, _ => False end.
Lemma sim_rb d1 d2 : sim d1 d2 -> simr (process_rb_parameters d1) (process_rb_parameters d2).
Proof.
  intros H. unfold process_rb_parameters. destruct (sim_extract d1 d2 "rb_coef" H) as [A1 A2], (sim_extract d1 d2 "rb_tim" H) as [B1 B2].
  destruct (extract_indexed_parameters d1 "rb_coef") as [c1 k1], (extract_indexed_parameters d2 "rb_coef") as [c2 k2],
    (extract_indexed_parameters d1 "rb_tim") as [t1 l1], (extract_indexed_parameters d2 "rb_tim") as [t2 l2]. cbn [fst snd] in *. subst k2 l2.
  destruct c1 as [|x1 c1], c2 as [|x2 c2]; try discriminate A1; destruct t1 as [|y1 t1], t2 as [|y2 t2]; try discriminate B1; cbn [List.length] in *.
  - split; auto.
  - cbn. exact Logic.I.
  - cbn. exact Logic.I.
  - injection A1 as A1. injection B1 as B1. cbn [Nat.eqb]. rewrite A1, B1. destruct (Nat.eqb _ _); cbn; [|exact Logic.I]. split; [|reflexivity].
    apply sim_set; [exact H|right; right; eauto 6].
Qed.
Lemma sim_rs d1 d2 : sim d1 d2 -> simr (process_rs_parameters d1) (process_rs_parameters d2).
Proof.
  intros H. unfold process_rs_parameters. destruct (sim_extract d1 d2 "rs_coef" H) as [A1 A2], (sim_extract d1 d2 "rs_tim" H) as [B1 B2].
  destruct (extract_indexed_parameters d1 "rs_coef") as [c1 k1], (extract_indexed_parameters d2 "rs_coef") as [c2 k2],
    (extract_indexed_parameters d1 "rs_tim") as [t1 l1], (extract_indexed_parameters d2 "rs_tim") as [t2 l2]. cbn [fst snd] in *. subst k2 l2.
  destruct c1 as [|x1 c1], c2 as [|x2 c2]; try discriminate A1; destruct t1 as [|y1 t1], t2 as [|y2 t2]; try discriminate B1; cbn [List.length] in *; try (injection A1 as A1); try (injection B1 as B1);
    try (split; [assumption|reflexivity]); try rewrite A1; try rewrite B1; destruct (Nat.eqb _ _); cbn [negb simr]; try exact Logic.I; (split; [|reflexivity]);
    try assumption; apply sim_set; try assumption; right; right; eauto 6.
Qed.
Lemma sim_pop ks : forall d1 d2, sim d1 d2 -> match pop_all d1 ks, pop_all d2 ks with Ok a, Ok b => sim a b | Err _, Err _ => True | _, _ => False end.
Proof.
  induction ks as [|k ks IH]; intros d1 d2 H; cbn [pop_all]; [exact H|]. unfold dmem. destruct (sim_get d1 d2 k H) as [[-> ->]|[a [b [-> [-> _]]]]]; [exact Logic.I|].
  apply IH. apply sim_del, H.
Qed.
Lemma sim_flat d1 d2 : sim d1 d2 ->
  match process_flat_carbon_parameters d1, process_flat_carbon_parameters d2 with Ok a, Ok b => sim a b | Err _, Err _ => True | _, _ => False end.
Proof.
  intros H. unfold process_flat_carbon_parameters. rewrite (sim_keys d1 d2 H). destruct (negb _); [exact H|].
  assert (R := sim_rb d1 d2 H). destruct (process_rb_parameters d1) as [[p1 k1]|], (process_rb_parameters d2) as [[p2 k2]|]; cbn [simr rbind] in *; try contradiction; [|exact Logic.I].
  destruct R as [R ->]. assert (Q := sim_rs p1 p2 R). destruct (process_rs_parameters p1) as [[q1 l1]|], (process_rs_parameters p2) as [[q2 l2]|]; cbn [simr rbind] in *; try contradiction; [|exact Logic.I].
  destruct Q as [Q ->]. apply sim_pop, Q.
Qed.
(** what a set gives, for two such sets *)
Lemma sim_number d1 d2 k : sim d1 d2 -> (number_given (Some d1) k = None <-> number_given (Some d2) k = None).
Proof.
  intros H. unfold number_given, given. destruct (sim_get d1 d2 k H) as [[-> ->]|[a [b [-> [-> R]]]]]; [tauto|].
  destruct R as [->|[[A B]|[x [y [x' [y' [-> ->]]]]]]]; [tauto| |cbn; tauto]. rewrite A, B. split; discriminate.
Qed.
Lemma sim_decay d1 d2 k : sim d1 d2 -> (decay_given (Some d1) k = None <-> decay_given (Some d2) k = None).
Proof.
  intros H. unfold decay_given. assert (R := sim_flat d1 d2 H). destruct (process_flat_carbon_parameters d1) as [a|], (process_flat_carbon_parameters d2) as [b|]; try contradiction; [|tauto].
  destruct (sim_get a b k R) as [[-> ->]|[x [y [-> [-> _]]]]]; [tauto|split; discriminate].
Qed.
Lemma sim_given d1 d2 k : sim d1 d2 -> (given (Some d1) k = None <-> given (Some d2) k = None).
Proof. intros H. unfold given. destruct (sim_get d1 d2 k H) as [[-> ->]|[x [y [-> [-> _]]]]]; [tauto|split; discriminate]. Qed.
Lemma uniform_by {C} (f : C -> option pyval) (cfgs : list C) : (forall c c', In c cfgs -> In c' cfgs -> (f c = None <-> f c' = None)) -> uniform f cfgs.
Proof.
  intros H. destruct cfgs as [|c0 cfgs]; [left; intros c []|]. destruct (f c0) eqn:E.
  - right. intros c I X. assert (Y := proj1 (H c c0 I ltac:(left; reflexivity)) X). congruence.
  - left. intros c I. apply (H c0 c ltac:(left; reflexivity) I). exact E.
Qed.

(** ** Lists of configurations with the same names *)
Definition sims (c c' : config) : Prop :=
  exists u e k u' e' k', cf_udm c = Some u /\ cf_emiconc c = Some e /\ cf_carbon c = Some k /\ cf_udm c' = Some u' /\ cf_emiconc c' = Some e' /\ cf_carbon c' = Some k' /\
    sim u u' /\ sim e e' /\ sim k k'.
Lemma vr_read a b : vr a b -> vr (as_read a) (as_read b).
Proof.
  intros [->|[[A B]|[x [y [x' [y' [-> ->]]]]]]]; [left; reflexivity| |right; right; cbn; eauto 6].
  right; left. destruct a, b; try discriminate; split; reflexivity.
Qed.
Lemma sim_read a b : sim a b -> sim (set_as_read a) (set_as_read b).
Proof. intros H. unfold set_as_read. induction H as [|x y l m [E R] H IH]; cbn; constructor; [|exact IH]. cbn. split; [exact E|apply vr_read, R]. Qed.
Lemma sims_read c c' : sims c c' -> sims (config_as_read c) (config_as_read c').
Proof.
  intros (u & e & k & u' & e' & k' & U & E & K & U' & E' & K' & A & B & C). unfold sims, config_as_read. cbn [cf_udm cf_emiconc cf_carbon]. rewrite U, E, K, U', E', K'. cbn.
  do 6 eexists. do 6 (split; [reflexivity|]). split; [|split]; apply sim_read; assumption.
Qed.
Lemma keys_read d : dkeys (set_as_read d) = dkeys d.
Proof. unfold dkeys, set_as_read. rewrite map_map. reflexivity. Qed.
Lemma wf_read d : wf d -> wf (set_as_read d).
Proof. unfold wf. intros H. rewrite keys_read. exact H. Qed.
Lemma dictionaries_read c : dictionaries c -> dictionaries (config_as_read c).
Proof.
  unfold dictionaries, config_as_read. cbn [cf_udm cf_emiconc cf_carbon]. intros (A & B & C). repeat split.
  - destruct (cf_udm c); cbn; [apply wf_read, A|exact Logic.I].
  - destruct (cf_emiconc c); cbn; [apply wf_read, B|exact Logic.I].
  - destruct (cf_carbon c); cbn; [apply wf_read, C|exact Logic.I].
Qed.
Lemma given_read p k : given p k = None -> given (option_map set_as_read p) k = None.
Proof. destruct p as [d|]; [|reflexivity]. cbn. rewrite !dget_None_keys, keys_read. auto. Qed.
Lemma sims_contained i cfgs : (forall c c', In c cfgs -> In c' cfgs -> sims c c') -> Forall dictionaries cfgs ->
  (forall c, In c cfgs -> given (cf_carbon c) "preindustrial_co2_conc" = None) -> self_contained i cfgs.
Proof.
  intros H D P. assert (D' := proj1 (Forall_forall _ _) D).
  assert (B : forall (f : config -> option pyval), (forall c c', sims c c' -> (f c = None <-> f c' = None)) -> uniform f cfgs).
  { intros f F. apply uniform_by. intros c c' X Y. apply F, H; assumption. }
  split; [|split; [|split; [|split; [|split]]]].
  - intros c X. destruct (D' c X) as (_ & E & K). split; assumption.
  - apply B. intros c c' (u & e & k & u' & e' & k' & U & E & K & U' & E' & K' & _ & X & _). rewrite E, E'. apply sim_given, X.
  - intros q Q. apply B. intros c c' (u & e & k & u' & e' & k' & U & E & K & U' & E' & K' & _ & _ & X). rewrite K, K'. apply sim_number, X.
  - apply B. intros c c' (u & e & k & u' & e' & k' & U & E & K & U' & E' & K' & _ & _ & X). rewrite K, K'. apply sim_decay, X.
  - apply B. intros c c' (u & e & k & u' & e' & k' & U & E & K & U' & E' & K' & _ & _ & X). rewrite K, K'. apply sim_decay, X.
  - intros c v X Y. unfold number_given in Y. rewrite (P c X) in Y. discriminate.
Qed.
Lemma sims_boxes {A} {N : Num.Num A} cfgs : (forall c c', In c cfgs -> In c' cfgs -> sims c c') -> Forall dictionaries cfgs -> box_contained (A := A) cfgs.
Proof.
  intros H D.
  assert (B : forall (f : config -> option pyval), (forall c c', sims c c' -> (f c = None <-> f c' = None)) -> uniform f cfgs).
  { intros f F. apply uniform_by. intros c c' X Y. apply F, H; assumption. }
  split; [exact D|]. split.
  - apply B. intros c c' (u & e & k & u' & e' & k' & U & E & K & U' & E' & K' & _ & X & _). rewrite E, E'. apply sim_given, X.
  - intros q d f Q. apply B. intros c c' (u & e & k & u' & e' & k' & U & E & K & U' & E' & K' & _ & _ & X). rewrite K, K'. apply sim_number, X.
Qed.

(** ** Configurations of one distribution *)
Definition sim3 (a b : dict pyval * dict pyval * dict pyval) : Prop :=
  sim (fst (fst a)) (fst (fst b)) /\ sim (snd (fst a)) (snd (fst b)) /\ sim (snd a) (snd b).
Definition wf3 (a : dict pyval * dict pyval * dict pyval) : Prop := wf (fst (fst a)) /\ wf (snd (fst a)) /\ wf (snd a).
Section Sampled.
Context {A : Type} {N : Num.Num A}.
Variable as_float : A -> pyval.
Hypothesis numbers : forall v, is_num (as_float v) = true.
Lemma sort_sim f a b pam x y : sim3 a b -> sim3 (sort_pam as_float f a (pam, x)) (sort_pam as_float f b (pam, y)).
Proof.
  destruct a as [[a1 a2] a3], b as [[b1 b2] b3]. intros [H1 [H2 H3]]. cbn [fst snd] in *. assert (R : vr (as_float x) (as_float y)) by (right; left; split; apply numbers).
  unfold sort_pam. repeat match goal with |- context [if ?b then _ else _] => destruct b end; repeat split; cbn [fst snd]; try assumption; apply sim_set; assumption.
Qed.
Lemma sort_wf f a pv : wf3 a -> wf3 (sort_pam as_float f a pv).
Proof.
  destruct a as [[a1 a2] a3], pv as [pam x]. intros [H1 [H2 H3]]. cbn [fst snd] in *.
  unfold sort_pam. repeat match goal with |- context [if ?b then _ else _] => destruct b end; repeat split; cbn [fst snd]; try assumption; apply wf_dset; assumption.
Qed.
Lemma sorts_sim f ks : forall s s' a b, (List.length ks <= List.length s)%nat -> (List.length ks <= List.length s')%nat -> sim3 a b ->
  sim3 (fold_left (sort_pam as_float f) (combine ks s) a) (fold_left (sort_pam as_float f) (combine ks s') b).
Proof.
  induction ks as [|k ks IH]; intros [|x s] [|y s'] a b L L' H; cbn in *; try lia; try exact H. apply IH; [lia|lia|]. apply sort_sim, H.
Qed.
Lemma sorts_wf f pvs : forall a, wf3 a -> wf3 (fold_left (sort_pam as_float f) pvs a).
Proof. induction pvs as [|pv pvs IH]; intros a H; cbn; [exact H|]. apply IH, sort_wf, H. Qed.
Lemma starts_wf values : wf3 (set_pamsets_start values).
Proof.
  unfold set_pamsets_start. match goal with |- wf3 (fold_left ?f _ _) => assert (G : forall l a, wf3 a -> wf3 (fold_left f l a)) end.
  { induction l as [|[k v] l IH]; intros a H; cbn; [exact H|]. apply IH. destruct a as [[a1 a2] a3], H as [H1 [H2 H3]]. cbn [fst snd] in *.
    repeat match goal with |- context [if ?b then _ else _] => destruct b end; repeat split; cbn [fst snd]; try assumption; apply wf_dset; assumption. }
  apply G. repeat split; apply wf_nil.
Qed.
Lemma distro_starts dd values o_forc o_method (d : distro A) : distro_init dd values o_forc o_method = Ok d -> wf3 (udm_start d, emiconc_start d, carbon_start d).
Proof.
  unfold distro_init. cbv zeta. destruct (set_prior _ _) as [p|]; cbn [rbind]; [|discriminate]. assert (W := starts_wf (the_values values)).
  destruct (set_pamsets_start _) as [[u e] k]. intros E. inversion E. exact W.
Qed.
Lemma single_sims d s s' i i' : (List.length (ordering d) <= List.length s)%nat -> (List.length (ordering d) <= List.length s')%nat ->
  sims (single_config as_float d s i) (single_config as_float d s' i').
Proof.
  intros L L'. assert (R : sim3 (udm_start d, emiconc_start d, carbon_start d) (udm_start d, emiconc_start d, carbon_start d)) by (repeat split; apply sim_refl).
  assert (H := sorts_sim (forc d) (ordering d) s s' _ _ L L' R).
  unfold single_config. destruct (fold_left _ (combine _ s) _) as [[u e] k], (fold_left _ (combine _ s') _) as [[u' e'] k']. destruct H as [H1 [H2 H3]]. cbn [fst snd] in *.
  exists u, e, k, u', e', k'. cbn. repeat split; assumption.
Qed.
Lemma single_dictionaries d s i : wf3 (udm_start d, emiconc_start d, carbon_start d) -> dictionaries (single_config as_float d s i).
Proof.
  intros W. assert (H := sorts_wf (forc d) (combine (ordering d) s) _ W). unfold single_config. destruct (fold_left _ _ _) as [[u e] k]. exact H.
Qed.
(** the configurations that a distribution gives *)
Definition of_distro (d : distro A) (c : config) : Prop := exists s idx, (List.length (ordering d) <= List.length s)%nat /\ c = single_config as_float d s idx.
Lemma made_of_distro d samples n pre cfgs : make_single_config_list as_float d samples n pre = Ok cfgs -> forall c, In c cfgs -> of_distro d c.
Proof.
  unfold make_single_config_list. generalize (seq 0 n). intros l. revert cfgs. induction l as [|i l IH]; intros cfgs H c C; cbn [mapM] in H; [inversion H; subst; destruct C|].
  match type of H with context [rbind ?a _] => destruct a as [c0|] eqn:E end; [|discriminate]. cbn [rbind] in H.
  destruct (mapM _ l) as [cs|] eqn:M; cbn [rbind] in H; [|discriminate]. inversion H; subst cfgs. destruct C as [<-|C]; [|exact (IH _ eq_refl c C)].
  destruct (nth_error samples i) as [s|].
  - destruct (Nat.ltb_spec (List.length s) (List.length (ordering d))); [discriminate|]. inversion E. exists s. eexists. split; [assumption|reflexivity].
  - destruct (ordering d) eqn:O'; [|discriminate]. inversion E. exists []. eexists. split; [rewrite O'; cbn; lia|reflexivity].
Qed.
Lemma flat_of_distro d points n file pre cfgs ws : make_config_lists as_float d points n file pre None = Ok (Flat cfgs, ws) -> forall c, In c cfgs -> of_distro d c.
Proof.
  unfold make_config_lists. destruct (draw d points) as [samples|]; cbn [rbind]; [|discriminate]. destruct (make_single_config_list _ _ _ _ _) as [l|] eqn:E; cbn [rbind]; [|discriminate].
  intros H. inversion H; subst. exact (made_of_distro _ _ _ _ _ E).
Qed.
Lemma of_sims d c c' : of_distro d c -> of_distro d c' -> sims c c'.
Proof. intros (s & i & L & ->) (s' & i' & L' & ->). apply single_sims; assumption. Qed.
Lemma of_no_preindustrial dd values o_forc o_method d c : wf (the_prior dd) -> distro_init dd values o_forc o_method = Ok d ->
  ~ In "preindustrial_co2_conc" (dkeys (the_prior dd)) -> ~ In "preindustrial_co2_conc" (dkeys (the_values values)) -> of_distro d c -> given (cf_carbon c) "preindustrial_co2_conc" = None.
Proof.
  intros W E P V (s & i & L & ->). apply (c66_nothing_else as_float dd values o_forc o_method d s i "preindustrial_co2_conc" W E L); [|exact V].
  destruct (c66_construction dd values o_forc o_method W) as (d' & E' & _ & _ & _ & _ & Ho & _). rewrite E in E'. injection E' as <-. intros X. apply Ho in X. apply P, X.
Qed.
End Sampled.

(** ** C108 *)
Section Batches.
Context {A : Type} {N : Num.Num A}.
Variable as_float : A -> pyval.
Hypothesis numbers : forall v, is_num (as_float v) = true.
Lemma c108_contained dd values o_forc o_method d points n file pre made ws cfgs : wf (the_prior dd) -> distro_init dd values o_forc o_method = Ok d ->
  ~ In "preindustrial_co2_conc" (dkeys (the_prior dd)) -> ~ In "preindustrial_co2_conc" (dkeys (the_values values)) ->
  make_config_lists as_float d points n file pre None = Ok (Flat made, ws) -> cfgs = made \/ cfgs = map config_as_read made ->
  (forall i, self_contained i cfgs) /\ box_contained (A := A) cfgs.
Proof.
  intros W E P V M C. assert (O' := flat_of_distro as_float _ _ _ _ _ _ _ M). assert (W3 := distro_starts _ _ _ _ _ E).
  assert (S1 : forall c c', In c made -> In c' made -> sims c c') by (intros c c' X Y; exact (of_sims as_float numbers d c c' (O' c X) (O' c' Y))).
  assert (D1 : Forall dictionaries made) by (apply Forall_forall; intros c X; destruct (O' c X) as (s & i & _ & ->); apply single_dictionaries, W3).
  assert (P1 : forall c, In c made -> given (cf_carbon c) "preindustrial_co2_conc" = None) by (intros c X; exact (of_no_preindustrial as_float _ _ _ _ _ _ W E P V (O' c X))).
  destruct C as [->| ->].
  - split; [intros i; apply sims_contained; assumption|apply sims_boxes; assumption].
  - assert (S2 : forall c c', In c (map config_as_read made) -> In c' (map config_as_read made) -> sims c c').
    { intros c c' X Y. apply in_map_iff in X as (x & <- & X), Y as (y & <- & Y). apply sims_read, S1; assumption. }
    assert (D2 : Forall dictionaries (map config_as_read made)) by (apply Forall_map; revert D1; apply Forall_impl; exact dictionaries_read).
    split; [intros i; apply sims_contained; [exact S2|exact D2|]|apply sims_boxes; assumption].
    intros c X. apply in_map_iff in X as (x & <- & X). apply given_read, P1, X.
Qed.
Lemma c108 nan number float_of label_of inputs writer rows orders (s : scendata) vars mw dd values o_forc o_method d points n file pre made ws cfgs :
  wf (the_prior dd) -> distro_init dd values o_forc o_method = Ok d ->
  ~ In "preindustrial_co2_conc" (dkeys (the_prior dd)) -> ~ In "preindustrial_co2_conc" (dkeys (the_values values)) ->
  make_config_lists as_float d points n file pre None = Ok (Flat made, ws) -> cfgs = made \/ cfgs = map config_as_read made ->
  scen_list s <> [] -> cfgs <> [] -> (1 <= mw)%Z -> (forall x, In x (scen_list s) -> wf x) ->
  (forall x c, In x (scen_list s) -> In c cfgs ->
     M_WholeBox.model_execute nan number float_of label_of inputs writer {| j_cfgs := [c]; j_vars := vars; j_scen := x |} = Ok (rows x c)) ->
  run_over_distribution (M_WholeBox.model_execute (A := A) nan number float_of label_of inputs writer) orders cfgs s vars mw =
  Ok (flat_map (fun x => flat_map (rows x) cfgs) (scen_list s)).
Proof.
  intros W E P V M C S0 C0 Mw Ws R. destruct (c108_contained _ _ _ _ _ _ _ _ _ _ _ _ W E P V M C) as [S1 B1]. unfold run_over_distribution.
  apply c101; try assumption. intros x m X _. destruct m; [intros _; apply S1|exact B1].
Qed.
End Batches.

(** ** C107: temperatures *)
Lemma c107_temperatures {A} {N : Num.Num A} label_of y0 y1 (m : M_WholeBox.model A) v g u ys ts unit : In (v, g) Spec_Reader.temperature_variables ->
  M_WholeBox.model_timeseries label_of (VInt y0) (VInt y1) m v u = Ok (ys, ts, unit) <->
  ys = Some (map label_of (Spec_Reader.window y0 y1)) /\ Spec_Reader.in_array (M_WholeBox.model_results m) g ts /\ unit = "K".
Proof.
  intros I. assert (Q : forall y, M_Whole.whole_number (VInt y) = Ok y).
  { intros y. apply P_Reading5.int_whole. reflexivity. }
  unfold M_WholeBox.model_timeseries. rewrite !Q. cbn [rbind].
  destruct (M_Reader.get_variable_timeseries y0 y1 (M_WholeBox.model_results m) v u) as [[[ys' ts'] unit']|] eqn:E; cbn [rbind].
  - apply (P_Reader.c72_temperature _ _ _ _ _ _ _ _ _ I) in E as (E1 & E2 & E3). subst ys' unit'. cbn [String.eqb Ascii.eqb Bool.eqb]. split.
    + intros H. inversion H; subst. auto.
    + intros (-> & H & ->). unfold Spec_Reader.in_array in *. congruence.
  - split; [discriminate|]. intros (-> & H & ->). assert (X := proj2 (P_Reader.c72_temperature y0 y1 (M_WholeBox.model_results m) u v g _ ts "K" I) (conj eq_refl (conj H eq_refl))). congruence.
Qed.
Lemma c108_default {A} {N : Num.Num A} : ~ In "preindustrial_co2_conc" (dkeys (the_prior (A := A) None)) /\ ~ In "preindustrial_co2_conc" (dkeys (the_values None)).
Proof. split; cbn; intuition discriminate. Qed.
