(** * P_Distro: ordering and routing of parameters (C66) *)
From Coq Require Import Ascii Sorted.
From Verif Require Import PyBase PyBaseFacts Num M_Utils M_Pams M_Gas M_Names M_Parallel M_Distro Spec_Pams Spec_Names Spec_Distro
  P_Pams P_Names P_Parallel.

Transparent carbon_required.
Lemma smem_thermal k : smem k ordering_standard_forc = true <-> thermal k.
Proof. rewrite smem_In. reflexivity. Qed.
Lemma smem_carbon k : smem k (dkeys carbon_required) = true <-> carbon_number k.
Proof. rewrite smem_In. unfold carbon_number. split; intros H; (repeat (destruct H as [<-|H]; [apply smem_In; reflexivity|])); destruct H. Qed.
Lemma prefix_iff p k : String.prefix p k = true <-> exists r, k = (p ++ r)%string.
Proof. split; [apply prefix_ex | intros [r ->]; apply prefix_app]. Qed.
Lemma smem_decay k : (String.prefix "rb_" k || String.prefix "rs_" k = true)%bool <-> decay_name k.
Proof.
  rewrite Bool.orb_true_iff, !prefix_iff. unfold decay_name. split.
  - intros [[r H]|[r H]]; exists r; auto.
  - intros [r [H|H]]; [left | right]; exists r; exact H.
Qed.
Lemma neg_true (b : bool) (P : Prop) : (b = true <-> P) -> (b = false <-> ~ P).
Proof. intros H. destruct b; split; intros X; try discriminate; try reflexivity; [exfalso; apply X, H; reflexivity | intros Y; apply H in Y; discriminate]. Qed.

(** ** sorted keys *)
Lemma insert_In k l x : In x (insert_key k l) <-> x = k \/ In x l.
Proof.
  induction l as [|y r IH]; cbn [insert_key]; [cbn; intuition|]. destruct (String.leb k y); cbn [In]; [intuition | rewrite IH; intuition].
Qed.
Lemma sorted_In l x : In x (sorted_keys l) <-> In x l.
Proof. induction l as [|k r IH]; [reflexivity|]. cbn [sorted_keys fold_right]. fold (sorted_keys r). rewrite insert_In, IH. cbn; intuition. Qed.
Lemma insert_NoDup k l : NoDup l -> ~ In k l -> NoDup (insert_key k l).
Proof.
  induction l as [|y r IH]; intros H N; cbn [insert_key]; [constructor; [intros [] | constructor]|]. destruct (String.leb k y); [constructor; assumption|].
  inversion H; subst. constructor; [|apply IH; [assumption | intros X; apply N; right; exact X]]. rewrite insert_In. intros [->|X]; [apply N; left; reflexivity | contradiction].
Qed.
Lemma sorted_NoDup l : NoDup l -> NoDup (sorted_keys l).
Proof.
  induction 1 as [|k r N H IH]; [constructor|]. cbn [sorted_keys fold_right]. fold (sorted_keys r). apply insert_NoDup; [exact IH | rewrite sorted_In; exact N].
Qed.
Definition le_s (a b : string) : Prop := String.leb a b = true.
Lemma le_s_trans a b c : le_s a b -> le_s b c -> le_s a c.
Proof.
  unfold le_s, String.leb. revert b c. induction a as [|x a IH]; intros b c; destruct b as [|y b]; destruct c as [|z c]; cbn [String.compare]; try discriminate; try reflexivity.
  destruct (Ascii.compare x y) eqn:XY; destruct (Ascii.compare y z) eqn:YZ; intros H1 H2; try discriminate.
  - apply Ascii.compare_eq_iff in XY, YZ. subst. destruct (Ascii.compare z z) eqn:ZZ; [exact (IH b c H1 H2) | reflexivity | ].
    unfold Ascii.compare in ZZ. rewrite N.compare_refl in ZZ. discriminate.
  - apply Ascii.compare_eq_iff in XY. subst. rewrite YZ. reflexivity.
  - apply Ascii.compare_eq_iff in YZ. subst. rewrite XY. reflexivity.
  - assert (Ascii.compare x z = Lt) as ->; [|reflexivity]. unfold Ascii.compare in *. rewrite N.compare_lt_iff in *. lia.
Qed.
Lemma insert_sorted k l : StronglySorted le_s l -> StronglySorted le_s (insert_key k l).
Proof.
  induction l as [|y r IH]; intros H; cbn [insert_key]; [constructor; [constructor | constructor]|]. inversion H as [|? ? Hr Hy]; subst. destruct (String.leb k y) eqn:E.
  - constructor; [exact H|]. constructor; [exact E|]. eapply Forall_impl; [|exact Hy]. intros a. apply le_s_trans, E.
  - constructor; [exact (IH Hr)|]. apply Forall_forall. intros a. rewrite insert_In. intros [->|Ha]; [|rewrite Forall_forall in Hy; exact (Hy a Ha)].
    destruct (String.leb_total k y) as [T|T]; [congruence | exact T].
Qed.
Lemma sorted_sorted l : StronglySorted le_s (sorted_keys l).
Proof. induction l as [|k r IH]; [constructor|]. cbn [sorted_keys fold_right]. apply insert_sorted, IH. Qed.
Lemma filter_sorted {B} (P : B -> B -> Prop) f l : StronglySorted P l -> StronglySorted P (filter f l).
Proof.
  induction 1 as [|x r H IH F]; [constructor|]. cbn [filter]. destruct (f x); [|exact IH]. constructor; [exact IH|].
  apply Forall_forall. intros y Hy. apply filter_In in Hy. rewrite Forall_forall in F. apply F, Hy.
Qed.

Section D.
Context {A : Type} {N : Num A}.

Lemma set_prior_ok (dd : dict (A * A)) ks : (forall k, In k ks -> In k (dkeys dd)) ->
  exists p, set_prior dd ks = Ok p /\ List.length p = List.length ks /\
    forall j k, nth_error ks j = Some k -> nth_error p j = dget dd k.
Proof.
  induction ks as [|k r IH]; intros H; [exists []; split; [reflexivity|]; split; [reflexivity|]; intros [|j] k; discriminate|].
  cbn [set_prior]. destruct (dget dd k) as [iv|] eqn:G; [|exfalso; apply dget_None_keys in G; apply G, H; left; reflexivity].
  destruct IH as (p & -> & L & P); [intros x Hx; apply H; right; exact Hx|]. cbn [rbind]. exists (iv :: p). split; [reflexivity|].
  split; [cbn; lia|]. intros [|j] x Hx; cbn [nth_error] in *; [injection Hx as <-; symmetry; exact G | apply P, Hx].
Qed.

(** The three start sets. *)
Definition start_step (s : dict pyval * dict pyval * dict pyval) (kv : string * pyval) :=
  let '(udm, emiconc, carbon) := s in
  let '(pam, value) := kv in
  if smem pam ordering_standard_forc then (dset udm pam value, emiconc, carbon)
  else if smem pam (dkeys carbon_required) then (udm, emiconc, dset carbon pam value)
  else (udm, dset emiconc pam value, carbon).
Definition udm_of (s : dict pyval * dict pyval * dict pyval) := fst (fst s).
Definition emi_of (s : dict pyval * dict pyval * dict pyval) := snd (fst s).
Definition car_of (s : dict pyval * dict pyval * dict pyval) := snd s.
Lemma start_frame (values : dict pyval) : forall s k, ~ In k (dkeys values) ->
  let s' := fold_left start_step values s in
  dget (udm_of s') k = dget (udm_of s) k /\ dget (emi_of s') k = dget (emi_of s) k /\ dget (car_of s') k = dget (car_of s) k.
Proof.
  induction values as [|[a v] r IH]; intros s k H; [cbv zeta; cbn [fold_left]; auto|]. cbn [fold_left]. cbv zeta.
  destruct (IH (start_step s (a, v)) k) as (H1 & H2 & H3); [intros X; apply H; right; exact X|]. rewrite H1, H2, H3.
  assert (k <> a) as Ne by (intros ->; apply H; left; reflexivity).
  destruct s as [[u e] c]. unfold start_step, udm_of, emi_of, car_of. destruct (smem a ordering_standard_forc), (smem a (dkeys carbon_required)); cbn [fst snd];
  rewrite ?dget_dset_neq by (auto; congruence); auto.
Qed.
Lemma start_get (values : dict pyval) : wf values -> forall s k v, dget values k = Some v ->
  dget (udm_of s) k = None -> dget (emi_of s) k = None -> dget (car_of s) k = None ->
  let s' := fold_left start_step values s in
  (thermal k -> dget (udm_of s') k = Some v /\ dget (emi_of s') k = None /\ dget (car_of s') k = None) /\
  (~ thermal k -> carbon_number k -> dget (udm_of s') k = None /\ dget (emi_of s') k = None /\ dget (car_of s') k = Some v) /\
  (~ thermal k -> ~ carbon_number k -> dget (udm_of s') k = None /\ dget (emi_of s') k = Some v /\ dget (car_of s') k = None).
Proof.
  induction values as [|[a w] r IH]; intros W s k v H U E C; [discriminate|]. cbn [fold_left]. cbv zeta. inversion W as [|? ? Na Wr]; subst.
  cbn [dget] in H. destruct (String.eqb_spec a k) as [<-|Ne].
  - injection H as ->. destruct (start_frame r (start_step s (a, v)) a Na) as (H1 & H2 & H3). rewrite H1, H2, H3. clear H1 H2 H3 IH.
    destruct s as [[u e] c]. unfold start_step, udm_of, emi_of, car_of in *. cbn [fst snd] in *.
    rewrite <- smem_thermal, <- smem_carbon. destruct (smem a ordering_standard_forc), (smem a (dkeys carbon_required)); cbn [fst snd];
    (split; [|split]); intros; try congruence; rewrite ?dget_dset_eq; auto; exfalso; auto.
  - apply IH; try assumption; destruct s as [[u e] c]; unfold start_step, udm_of, emi_of, car_of in *; cbn [fst snd] in *;
    destruct (smem a ordering_standard_forc), (smem a (dkeys carbon_required)); cbn [fst snd]; rewrite ?dget_dset_neq by (auto; congruence); assumption.
Qed.

(** Sampled parameters of one configuration. *)
Variable as_float : A -> pyval.
Lemma sort_frame f pvs : forall s k, ~ In k (map fst pvs) ->
  let s' := fold_left (sort_pam as_float f) pvs s in
  dget (udm_of s') k = dget (udm_of s) k /\ dget (emi_of s') k = dget (emi_of s) k /\ dget (car_of s') k = dget (car_of s) k.
Proof.
  induction pvs as [|[a v] r IH]; intros s k H; [cbv zeta; cbn [fold_left]; auto|]. cbn [fold_left]. cbv zeta.
  destruct (IH (sort_pam as_float f s (a, v)) k) as (H1 & H2 & H3); [intros X; apply H; right; exact X|]. rewrite H1, H2, H3.
  assert (k <> a) as Ne by (intros ->; apply H; left; reflexivity).
  destruct s as [[u e] c]. unfold sort_pam, udm_of, emi_of, car_of.
  destruct (smem a ordering_standard_forc); [|destruct (negb f && smem a (dkeys carbon_required))%bool; [|destruct (negb f && _)%bool; [|destruct (negb f)]]]; cbn [fst snd];
  rewrite ?dget_dset_neq by (auto; congruence); auto.
Qed.
Lemma sort_get f pvs : forall s j k v, NoDup (map fst pvs) -> nth_error pvs j = Some (k, v) -> (f = true -> thermal k) ->
  dget (udm_of s) k = None -> dget (emi_of s) k = None -> dget (car_of s) k = None ->
  let s' := fold_left (sort_pam as_float f) pvs s in
  (thermal k -> dget (udm_of s') k = Some (as_float v) /\ dget (emi_of s') k = None /\ dget (car_of s') k = None) /\
  (~ thermal k -> carbon_number k \/ decay_name k -> dget (udm_of s') k = None /\ dget (emi_of s') k = None /\ dget (car_of s') k = Some (as_float v)) /\
  (~ thermal k -> ~ carbon_number k -> ~ decay_name k -> dget (udm_of s') k = None /\ dget (emi_of s') k = Some (as_float v) /\ dget (car_of s') k = None).
Proof.
  induction pvs as [|[a w] r IH]; intros s j k v W H F U E C; [destruct j; discriminate|]. cbn [fold_left]. cbv zeta. cbn [map fst] in W. inversion W as [|? ? Na Wr]; subst.
  destruct j as [|j]; cbn [nth_error] in H.
  - injection H as -> ->. destruct (sort_frame f r (sort_pam as_float f s (k, v)) k Na) as (H1 & H2 & H3). rewrite H1, H2, H3. clear H1 H2 H3 IH.
    destruct s as [[u e] c]. unfold sort_pam, udm_of, emi_of, car_of in *. cbn [fst snd] in *.
    rewrite <- smem_thermal, <- smem_carbon, <- smem_decay in *. set (d := (String.prefix "rb_" k || String.prefix "rs_" k)%bool) in *. clearbody d.
    destruct (smem k ordering_standard_forc); [cbn [fst snd]; (split; [|split]); intros; try congruence; rewrite ?dget_dset_eq; auto; exfalso; auto|].
    destruct f; [specialize (F eq_refl); discriminate|]. cbn [negb andb].
    destruct (smem k (dkeys carbon_required)), d; cbn [fst snd]; (split; [|split]); intros; try congruence; rewrite ?dget_dset_eq; auto; exfalso; intuition congruence.
  - assert (k <> a) as Ne by (intros ->; apply Na; apply nth_error_In in H; apply (in_map fst) in H; exact H).
    apply (IH _ j); try assumption; destruct s as [[u e] c]; unfold sort_pam, udm_of, emi_of, car_of in *; cbn [fst snd] in *;
    (destruct (smem a ordering_standard_forc); [|destruct (negb f && smem a (dkeys carbon_required))%bool; [|destruct (negb f && _)%bool; [|destruct (negb f)]]]); cbn [fst snd]; rewrite ?dget_dset_neq by (auto; congruence); assumption.
Qed.

Lemma sets_of d s idx : let t := fold_left (sort_pam as_float (forc d)) (combine (ordering d) s) (udm_start d, emiconc_start d, carbon_start d) in
  single_config as_float d s idx = {| cf_udm := Some (udm_of t); cf_emiconc := Some (emi_of t); cf_carbon := Some (car_of t); cf_index := Some (VStr idx) |}.
Proof. cbv zeta. unfold single_config. destruct (fold_left _ _ _) as [[u e] c]. reflexivity. Qed.

(** What construction leaves. *)
Lemma c66_construction dd values o_forc o_method : wf (the_prior dd) ->
  exists d, distro_init dd values o_forc o_method = Ok d /\
    setvalues d = the_values values /\ forc d = match o_forc with Some b => b | None => false end /\
    NoDup (ordering d) /\ StronglySorted (fun a b => String.leb a b = true) (ordering d) /\
    (forall k, In k (ordering d) <-> In k (dkeys (the_prior dd)) /\ ~ In k (dkeys (the_values values)) /\ (forc d = true -> thermal k)) /\
    List.length (prior d) = List.length (ordering d) /\
    (forall j k, nth_error (ordering d) j = Some k -> nth_error (prior d) j = dget (the_prior dd) k) /\
    (udm_start d, emiconc_start d, carbon_start d) = fold_left start_step (the_values values) ([], [], []).
Proof.
  intros W. unfold distro_init. set (pr := the_prior dd) in *. set (vs := the_values values).
  set (f := match o_forc with Some b => b | None => false end). set (keys := sorted_keys (dkeys pr)).
  set (order := if f then _ else _).
  assert (Ho : exists g, order = filter g keys /\ forall k, g k = true <-> ~ In k (dkeys vs) /\ (f = true -> thermal k)).
  { unfold order. destruct f; eexists; (split; [reflexivity|]); intros k; cbv beta.
    - rewrite Bool.andb_true_iff, Bool.negb_true_iff, smem_thermal, dmem_false, dget_None_keys. intuition.
    - rewrite Bool.negb_true_iff, dmem_false, dget_None_keys. intuition discriminate. }
  destruct Ho as (g & Eg & Hg). rewrite Eg. clearbody order. subst order.
  destruct (set_prior_ok pr (filter g keys)) as (p & Ep & Lp & Hp).
  { intros k Hk. apply filter_In in Hk. apply sorted_In, Hk. }
  rewrite Ep. cbn [rbind]. destruct (set_pamsets_start vs) as [[u e] c] eqn:E.
  eexists. split; [reflexivity|]. cbn [setvalues forc ordering prior udm_start emiconc_start carbon_start].
  split; [reflexivity|]. split; [reflexivity|]. split; [apply NoDup_filter, sorted_NoDup, W|].
  split; [apply filter_sorted, sorted_sorted|]. split.
  { intros k. rewrite filter_In, Hg. unfold keys. rewrite sorted_In. intuition. }
  split; [exact Lp|]. split; [exact Hp|]. symmetry. exact E.
Qed.

Lemma distro_method (pr : dict (A * A)) values o_forc o_method d : distro_init (Some pr) values o_forc o_method = Ok d ->
  method d = match o_method with Some m => m | None => "latin" end.
Proof.
  unfold distro_init. cbv zeta. destruct (set_prior _ _) as [p|]; [|discriminate]. cbn [rbind]. destruct (set_pamsets_start _) as [[u e] c].
  intros E. inversion E. reflexivity.
Qed.
Lemma default_prior values o_forc o_method : distro_init (A := A) None values o_forc o_method = distro_init (Some prior_flat) values o_forc o_method.
Proof. reflexivity. Qed.

Lemma start_none values k : ~ In k (dkeys values) -> let s := fold_left start_step values ([], [], []) in
  dget (udm_of s) k = None /\ dget (emi_of s) k = None /\ dget (car_of s) k = None.
Proof. intros H. exact (start_frame values ([], [], []) k H). Qed.

Lemma combine_fst {B C} (l : list B) : forall (m : list C), (List.length l <= List.length m)%nat -> map fst (combine l m) = l.
Proof. induction l as [|x r IH]; intros [|y m] H; cbn in *; try reflexivity; [lia|]. f_equal. apply IH. lia. Qed.
Lemma combine_nth {B C} (l : list B) : forall (m : list C) j x y, nth_error l j = Some x -> nth_error m j = Some y -> nth_error (combine l m) j = Some (x, y).
Proof. induction l as [|a r IH]; intros [|b m] [|j] x y H1 H2; cbn in *; try discriminate; [congruence | exact (IH m j x y H1 H2)]. Qed.

Lemma c66_sampled dd values o_forc o_method d s idx j k v : wf (the_prior dd) -> distro_init dd values o_forc o_method = Ok d ->
  (List.length (ordering d) <= List.length s)%nat -> nth_error (ordering d) j = Some k -> nth_error s j = Some v ->
  let c := single_config as_float d s idx in
  (thermal k -> only_thermal c k (as_float v)) /\
  (~ thermal k -> carbon_number k \/ decay_name k -> only_carbon c k (as_float v)) /\
  (~ thermal k -> ~ carbon_number k -> ~ decay_name k -> only_emission c k (as_float v)).
Proof.
  intros W E L Hk Hv. destruct (c66_construction dd values o_forc o_method W) as (d' & E' & _ & _ & ND & _ & Ho & _ & _ & St).
  rewrite E in E'. injection E' as <-. cbv zeta. rewrite sets_of. cbv zeta. unfold only_thermal, only_carbon, only_emission, given. cbn [cf_udm cf_emiconc cf_carbon].
  pose proof (nth_error_In _ _ Hk) as Ik. apply Ho in Ik as (_ & Nv & Hf).
  rewrite St. destruct (start_none (the_values values) k Nv) as (U & Em & C). cbv zeta in U, Em, C.
  apply (sort_get (forc d) _ _ j k v); try assumption; [rewrite combine_fst by exact L; exact ND | apply combine_nth; assumption].
Qed.
Lemma c66_fixed dd values o_forc o_method d s idx k v : wf (the_prior dd) -> wf (the_values values) -> distro_init dd values o_forc o_method = Ok d ->
  (List.length (ordering d) <= List.length s)%nat -> dget (the_values values) k = Some v ->
  let c := single_config as_float d s idx in
  (thermal k -> only_thermal c k v) /\ (~ thermal k -> carbon_number k -> only_carbon c k v) /\ (~ thermal k -> ~ carbon_number k -> only_emission c k v).
Proof.
  intros W Wv E L Hv. destruct (c66_construction dd values o_forc o_method W) as (d' & E' & _ & _ & ND & _ & Ho & _ & _ & St).
  rewrite E in E'. injection E' as <-. cbv zeta. rewrite sets_of. cbv zeta. unfold only_thermal, only_carbon, only_emission, given. cbn [cf_udm cf_emiconc cf_carbon].
  assert (~ In k (map fst (combine (ordering d) s))) as No.
  { rewrite combine_fst by exact L. intros X. apply Ho in X as (_ & X & _). apply X, dget_In_keys. unfold dmem. rewrite Hv. reflexivity. }
  rewrite St. destruct (sort_frame (forc d) _ (fold_left start_step (the_values values) ([], [], [])) k No) as (-> & -> & ->).
  apply start_get; try assumption; reflexivity.
Qed.
Lemma c66_nothing_else dd values o_forc o_method d s idx k : wf (the_prior dd) -> distro_init dd values o_forc o_method = Ok d ->
  (List.length (ordering d) <= List.length s)%nat -> ~ In k (ordering d) -> ~ In k (dkeys (the_values values)) ->
  nowhere (single_config as_float d s idx) k.
Proof.
  intros W E L No Nv. destruct (c66_construction dd values o_forc o_method W) as (d' & E' & _ & _ & ND & _ & Ho & _ & _ & St).
  rewrite E in E'. injection E' as <-. rewrite sets_of. cbv zeta. unfold nowhere, given. cbn [cf_udm cf_emiconc cf_carbon].
  rewrite St. rewrite <- (combine_fst (ordering d) s) in No by exact L. destruct (sort_frame (forc d) _ (fold_left start_step (the_values values) ([], [], [])) k No) as (-> & -> & ->).
  apply start_none, Nv.
Qed.
End D.
