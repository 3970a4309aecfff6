(** * P_Pams: proofs about parameter handling *)
From Verif Require Import PyBase PyBaseFacts M_Utils M_Flat M_Pams Spec_Pams.

(** ** _utils *)

Lemma check_numeric_get req : wf req -> forall pam k,
  dget (check_numeric_pamset req pam) k =
  match dget req k with
  | Some d => match dget pam k with Some v => Some (if is_num v then v else d) | None => Some d end
  | None => dget pam k
  end.
Proof.
  unfold check_numeric_pamset; induction req as [|[k0 d0] r IH]; simpl; intros Hwf pam k; [reflexivity|].
  inversion Hwf as [|? ? Hn Hwf']; subst.
  rewrite IH by exact Hwf'.
  assert (Hr : dget r k0 = None) by (apply dget_None_keys; exact Hn).
  destruct (String.eqb k0 k) eqn:E.
  - apply String.eqb_eq in E; subst k0. rewrite Hr.
    destruct (dget pam k) as [v|] eqn:G.
    + destruct (is_num v) eqn:N; [rewrite G; reflexivity | apply dget_dset_eq].
    + apply dget_dset_eq.
  - assert (Hsame : forall d1 : dict pyval, dget (dset d1 k0 d0) k = dget d1 k)
      by (intros d1; rewrite dget_dset, E; reflexivity).
    destruct (dget pam k0) as [v|]; [destruct (is_num v)|]; rewrite ?Hsame; reflexivity.
Qed.

Lemma check_numeric_wf req pam : wf pam -> wf (check_numeric_pamset req pam).
Proof.
  unfold check_numeric_pamset; revert pam; induction req as [|[k0 d0] r IH]; simpl; intros pam H; [exact H|].
  apply IH; destruct (dget pam k0) as [v|]; [destruct (is_num v)|]; auto using wf_dset.
Qed.

Lemma cut_fold_get (req : dict pyval) pam : wf pam -> forall acc k,
  dget (fold_left (fun (new : dict pyval) (kv : string * pyval) => if dmem req (fst kv) then dset new (fst kv) (snd kv) else new) pam acc) k =
  match dget pam k with Some v => if dmem req k then Some v else dget acc k | None => dget acc k end.
Proof.
  induction pam as [|[k0 v0] r IH]; simpl; intros Hwf acc k; [reflexivity|].
  inversion Hwf as [|? ? Hn Hwf']; subst. rewrite IH by exact Hwf'.
  assert (Hr : dget r k0 = None) by (apply dget_None_keys; exact Hn).
  destruct (String.eqb k0 k) eqn:E.
  - apply String.eqb_eq in E; subst k0; rewrite Hr.
    destruct (dmem req k) eqn:M; [apply dget_dset_eq | reflexivity].
  - destruct (dmem req k0); [rewrite dget_dset, E|]; reflexivity.
Qed.

Lemma cut_get (req : dict pyval) pam k : wf pam ->
  dget (cut_non_required req pam) k = if dmem req k then dget pam k else None.
Proof.
  intros H; unfold cut_non_required; rewrite cut_fold_get by exact H; simpl.
  destruct (dget pam k), (dmem req k); reflexivity.
Qed.

Lemma cut_wf (req : dict pyval) pam : wf (cut_non_required req pam).
Proof.
  unfold cut_non_required.
  assert (H : forall acc, wf acc -> wf (fold_left (fun (new : dict pyval) (kv : string * pyval) => if dmem req (fst kv) then dset new (fst kv) (snd kv) else new) pam acc)).
  { induction pam as [|[k0 v0] r IH]; simpl; intros acc Ha; [exact Ha|].
    apply IH; destruct (dmem req k0); auto using wf_dset. }
  apply H, wf_nil.
Qed.

(** On python dictionaries cutting is filtering. *)
Lemma cut_filter (req : dict pyval) pam : wf pam ->
  cut_non_required req pam = filter (fun kv => dmem req (fst kv)) pam.
Proof.
  unfold cut_non_required.
  enough (G : forall acc, wf (acc ++ pam) ->
    fold_left (fun (new : dict pyval) (kv : string * pyval) => if dmem req (fst kv) then dset new (fst kv) (snd kv) else new) pam acc =
    acc ++ filter (fun kv => dmem req (fst kv)) pam) by (intros H; exact (G [] H)).
  induction pam as [|[k0 v0] r IH]; simpl; intros acc H; [now rewrite app_nil_r|].
  assert (Happ : forall (a : dict pyval), ~ In k0 (dkeys a) -> dset a k0 v0 = a ++ [(k0, v0)]).
  { induction a as [|[k1 v1] a IHa]; simpl; intros Hni; [reflexivity|].
    destruct (String.eqb k1 k0) eqn:E; [apply String.eqb_eq in E; subst; exfalso; auto|].
    rewrite IHa; auto. }
  assert (Hni : ~ In k0 (dkeys acc)).
  { unfold wf, dkeys in H. rewrite map_app in H. simpl in H.
    apply NoDup_remove_2 in H. intros Hin; apply H; apply in_or_app; left; exact Hin. }
  destruct (dmem req k0).
  - rewrite Happ by exact Hni. rewrite IH; [now rewrite <- app_assoc|].
    rewrite <- app_assoc; exact H.
  - apply IH. unfold wf, dkeys in *. rewrite map_app in *. simpl in H. apply NoDup_remove_1 in H. exact H.
Qed.

Lemma dmem_dupdate (u r : dict pyval) k : wf r -> dmem (dupdate u r) k = (dmem u k || dmem r k)%bool.
Proof.
  intros H; unfold dmem; rewrite dget_dupdate by exact H.
  destruct (dget r k), (dget u k); reflexivity.
Qed.

Lemma cut_and_check_get req pam used k : wf req -> wf pam ->
  dget (cut_and_check_pamset req pam used) k = spec_completed req pam used k.
Proof.
  intros Hr Hp; unfold cut_and_check_pamset, spec_completed.
  rewrite check_numeric_get by exact Hr.
  rewrite cut_get by exact Hp.
  set (used' := match used with [] => req | _ => dupdate used req end).
  assert (Hu : dmem used' k = (dmem used k || dmem req k)%bool).
  { subst used'; destruct used; [reflexivity | apply dmem_dupdate, Hr]. }
  rewrite Hu. unfold dmem at 1 2 3 4.
  destruct (dget req k) as [d|] eqn:R.
  - rewrite Bool.orb_true_r. destruct (dget pam k); reflexivity.
  - rewrite Bool.orb_false_r. unfold dmem. destruct (dget pam k); destruct (dget used k); reflexivity.
Qed.

Lemma cut_and_check_wf req pam used : wf (cut_and_check_pamset req pam used).
Proof. apply check_numeric_wf, cut_wf. Qed.

(** update_pam_if_numeric *)
Definition upd_step can (d : dict pyval) (kv : string * pyval) : dict pyval :=
  if negb (smem (fst kv) can) || negb (dmem d (fst kv)) then d
  else if negb (is_num (snd kv)) then d else dset d (fst kv) (snd kv).

Lemma upd_step_keys can d kv : dkeys (upd_step can d kv) = dkeys d.
Proof.
  unfold upd_step. destruct (smem _ can); simpl; [|reflexivity].
  destruct (dmem d (fst kv)) eqn:M; simpl; [|reflexivity].
  destruct (is_num _); simpl; [|reflexivity]. rewrite dkeys_dset, M; reflexivity.
Qed.

Lemma upd_keys can new old : dkeys (update_pam_if_numeric old new can) = dkeys old.
Proof.
  unfold update_pam_if_numeric; destruct new as [new|]; [|reflexivity].
  change (dkeys (fold_left (upd_step can) new old) = dkeys old).
  revert old; induction new as [|kv r IH]; simpl; intros old; [reflexivity|].
  rewrite IH; apply upd_step_keys.
Qed.

Lemma upd_step_get can d kv k :
  dget (upd_step can d kv) k =
  if (String.eqb (fst kv) k && smem k can && dmem d k && is_num (snd kv))%bool then Some (snd kv) else dget d k.
Proof.
  unfold upd_step. destruct (String.eqb (fst kv) k) eqn:E; simpl.
  - apply String.eqb_eq in E; subst k.
    destruct (smem (fst kv) can), (dmem d (fst kv)), (is_num (snd kv)); simpl; try reflexivity.
    apply dget_dset_eq.
  - destruct (smem (fst kv) can), (dmem d (fst kv)), (is_num (snd kv)); simpl; try reflexivity.
    rewrite dget_dset, E; reflexivity.
Qed.

Lemma upd_get can new old k : wf new ->
  dget (update_pam_if_numeric old (Some new) can) k = spec_updated old new can k.
Proof.
  unfold update_pam_if_numeric, spec_updated.
  change (wf new -> dget (fold_left (upd_step can) new old) k =
    match dget old k, dget new k with
    | Some v, Some w => Some (if smem k can && is_num w then w else v)
    | o, _ => o end).
  revert old; induction new as [|[k0 v0] r IH]; simpl; intros old Hwf; [destruct (dget old k); reflexivity|].
  inversion Hwf as [|? ? Hn Hwf']; subst. rewrite IH by exact Hwf'.
  rewrite upd_step_get; simpl.
  assert (Hr : dget r k0 = None) by (apply dget_None_keys; exact Hn).
  destruct (String.eqb k0 k) eqn:E; simpl.
  - apply String.eqb_eq in E; subst k0; rewrite Hr. unfold dmem.
    destruct (smem k can); simpl; destruct (dget old k); simpl; try reflexivity.
    destruct (is_num v0); reflexivity.
  - reflexivity.
Qed.

(** ** heap versions *)
Lemma hread_hwrite_eq h r d : (r < List.length h)%nat -> hread (hwrite h r d) r = d.
Proof.
  unfold hread; revert r; induction h as [|x t IH]; simpl; intros r H; [lia|].
  destruct r; simpl; [reflexivity | apply IH; lia].
Qed.

Lemma hread_hwrite_neq h r r' d : r <> r' -> hread (hwrite h r d) r' = hread h r'.
Proof.
  unfold hread; revert r r'; induction h as [|x t IH]; simpl; intros r r' H; [reflexivity|].
  destruct r, r'; simpl; try reflexivity; try congruence. apply IH; congruence.
Qed.

Lemma hwrite_len h r d : List.length (hwrite h r d) = List.length h.
Proof. revert r; induction h as [|x t IH]; simpl; intros [|r]; simpl; auto. Qed.

Lemma hread_app_l h e r : (r < List.length h)%nat -> hread (h ++ e) r = hread h r.
Proof. intros H; unfold hread; now rewrite app_nth1. Qed.

Lemma cut_and_check_h_frame h rreq rpam rused :
  (rreq < List.length h)%nat -> (rpam < List.length h)%nat -> (rused < List.length h)%nat ->
  rused <> rreq -> rused <> rpam ->
  let '(h', r) := cut_and_check_pamset_h h rreq rpam rused in
  hread h' r = cut_and_check_pamset (hread h rreq) (hread h rpam) (hread h rused) /\
  r = List.length h /\
  (forall q, (q < List.length h)%nat -> q <> rused -> hread h' q = hread h q) /\
  hread h' rused = match hread h rused with [] => [] | u => dupdate u (hread h rreq) end.
Proof.
  intros H1 H2 H3 Hne1 Hne2. unfold cut_and_check_pamset_h, cut_non_required_h, check_numeric_pamset_h, halloc.
  destruct (hread h rused) as [|u0 u] eqn:U.
  - split; [|split; [reflexivity|split]].
    + rewrite hread_hwrite_eq by (rewrite app_length; simpl; lia).
      rewrite hread_app_l by exact H1. unfold hread at 2. rewrite app_nth2 by lia.
      rewrite Nat.sub_diag; reflexivity.
    + intros q Hq _. rewrite hread_hwrite_neq by lia. apply hread_app_l, Hq.
    + rewrite hread_hwrite_neq by lia. rewrite hread_app_l by exact H3. exact U.
  - set (h1 := hwrite h rused (dupdate (u0 :: u) (hread h rreq))).
    assert (L : List.length h1 = List.length h) by apply hwrite_len.
    split; [|split; [exact L|split]].
    + rewrite hread_hwrite_eq by (rewrite app_length; simpl; lia).
      rewrite hread_app_l by lia. unfold hread at 2. rewrite app_nth2 by lia.
      rewrite Nat.sub_diag; simpl nth.
      subst h1. rewrite hread_hwrite_neq by exact Hne1. rewrite hread_hwrite_eq by exact H3.
      rewrite hread_hwrite_neq by exact Hne2. reflexivity.
    + intros q Hq Hqu. rewrite hread_hwrite_neq by lia. rewrite hread_app_l by lia.
      subst h1; apply hread_hwrite_neq; congruence.
    + rewrite hread_hwrite_neq by lia. rewrite hread_app_l by lia.
      subst h1; apply hread_hwrite_eq, H3.
Qed.

(** ** handler *)
Lemma handler_required_wf : wf handler_required.
Proof. unfold wf; simpl. repeat (constructor; [simpl; intuition discriminate|]). constructor. Qed.

Lemma check_pamset_caller_wf p : opt_wf p -> wf (check_pamset_caller p).
Proof.
  intros H; unfold check_pamset_caller.
  assert (H0 : wf (match p with None => [] | Some q => q end)) by (destruct p; [exact H | apply wf_nil]).
  set (q := match p with None => [] | Some q => q end) in *.
  destruct (dmem q "lifetime_mode"); destruct (dmem _ "carbon_cycle_model"); auto using wf_dset.
Qed.

Lemma check_pamset_caller_get p k : k <> "lifetime_mode" -> k <> "carbon_cycle_model" ->
  dget (check_pamset_caller p) k = given p k.
Proof.
  intros H1 H2; unfold check_pamset_caller, given.
  assert (H0 : dget (match p with None => [] | Some q => q end) k = match p with Some d => dget d k | None => None end)
    by (destruct p; reflexivity).
  set (q := match p with None => [] | Some q => q end) in *. rewrite <- H0.
  destruct (dmem q "lifetime_mode"); destruct (dmem _ "carbon_cycle_model");
    rewrite ?dget_dset_neq; auto.
Qed.

Lemma check_pamset_caller_lifetime p :
  dget (check_pamset_caller p) "lifetime_mode" =
  Some (match given p "lifetime_mode" with Some v => v | None => VStr "TAR" end).
Proof.
  unfold check_pamset_caller, given.
  set (q := match p with None => [] | Some q => q end).
  assert (H0 : dget q "lifetime_mode" = match p with Some d => dget d "lifetime_mode" | None => None end)
    by (destruct p; reflexivity). rewrite <- H0.
  set (q2 := if dmem q "lifetime_mode" then q else dset q "lifetime_mode" (VStr "TAR")).
  assert (H2 : dget q2 "lifetime_mode" = Some (match dget q "lifetime_mode" with Some v => v | None => VStr "TAR" end)).
  { subst q2; unfold dmem. destruct (dget q "lifetime_mode") eqn:E; [exact E | apply dget_dset_eq]. }
  destruct (dmem q2 "carbon_cycle_model"); rewrite ?(dget_dset_neq _ "carbon_cycle_model" "lifetime_mode") by discriminate; exact H2.
Qed.

Lemma check_pamset_get p k : opt_wf p ->
  dget (check_pamset p) k = spec_completed handler_required (check_pamset_caller p) handler_used k.
Proof. intros H; apply cut_and_check_get; [apply handler_required_wf | apply check_pamset_caller_wf, H]. Qed.

Lemma check_pamset_wf p : wf (check_pamset p).
Proof. apply cut_and_check_wf. Qed.

Lemma check_pamset_required p k d : opt_wf p -> dget handler_required k = Some d ->
  dget (check_pamset p) k = Some (num_or p k d).
Proof.
  intros H R; rewrite check_pamset_get by exact H; unfold spec_completed, num_or; rewrite R.
  assert (Hk : k <> "lifetime_mode" /\ k <> "carbon_cycle_model").
  { split; intros ->; vm_compute in R; discriminate. }
  rewrite check_pamset_caller_get by tauto.
  destruct (given p k); reflexivity.
Qed.

Lemma check_pamset_just_one p : opt_wf p -> dget (check_pamset p) "just_one" = given p "just_one".
Proof.
  intros H; rewrite check_pamset_get by exact H; unfold spec_completed.
  replace (dget handler_required "just_one") with (@None pyval) by reflexivity.
  rewrite check_pamset_caller_get by discriminate. destruct (given p "just_one"); reflexivity.
Qed.

Lemma check_pamset_lifetime p : opt_wf p -> dget (check_pamset p) "lifetime_mode" =
  Some (match given p "lifetime_mode" with Some v => v | None => VStr "TAR" end).
Proof.
  intros H; rewrite check_pamset_get by exact H; unfold spec_completed.
  replace (dget handler_required "lifetime_mode") with (@None pyval) by reflexivity.
  rewrite check_pamset_caller_lifetime. reflexivity.
Qed.

Lemma check_pamset_conc_run p : opt_wf p -> dget (check_pamset p) "conc_run" = None.
Proof.
  intros H; rewrite check_pamset_get by exact H; unfold spec_completed.
  replace (dget handler_required "conc_run") with (@None pyval) by reflexivity.
  destruct (dget _ "conc_run"); reflexivity.
Qed.

Opaque check_pamset.

(** consistency *)
Lemma consistency_reset_get old pams : NoDup pams -> forall new new' ,
  consistency_reset old new pams = Ok new' -> forall k,
  dget new' k =
  if smem k pams then
    match dget new k, dget old k with
    | Some v, Some w => Some (if py_eqb v w then v else w)
    | o, _ => o end
  else dget new k.
Proof.
  induction pams as [|p r IH]; simpl; intros Hnd new new' H k.
  - injection H as <-; reflexivity.
  - inversion Hnd as [|? ? Hni Hnd']; subst.
    assert (Hpr : smem p r = false) by (destruct (smem p r) eqn:E; [apply smem_In in E; contradiction | reflexivity]).
    assert (Hkeep : consistency_reset old new r = Ok new' ->
       (forall v w, dget new p = Some v -> dget old p = Some w -> py_eqb v w = true) ->
       dget new' k = if (String.eqb k p || smem k r)%bool then
          match dget new k, dget old k with
          | Some v, Some w => Some (if py_eqb v w then v else w)
          | o, _ => o end else dget new k).
    { intros H1 H2. rewrite (IH Hnd' _ _ H1 k). destruct (String.eqb k p) eqn:E; simpl; [|reflexivity].
      apply String.eqb_eq in E; subst k. rewrite Hpr.
      destruct (dget new p) as [v|]; [|reflexivity]. destruct (dget old p) as [w|]; [|reflexivity].
      rewrite (H2 v w eq_refl eq_refl); reflexivity. }
    destruct (dget new p) as [v|] eqn:N.
    + destruct (dget old p) as [w|] eqn:O; [|discriminate].
      destruct (py_eqb v w) eqn:Q.
      * apply Hkeep; [exact H|]. intros v' w' Hv Hw; congruence.
      * rewrite (IH Hnd' _ _ H k). rewrite dget_dset. rewrite (String.eqb_sym p k).
        destruct (String.eqb k p) eqn:E; simpl.
        -- apply String.eqb_eq in E; subst k. rewrite Hpr, N, O, Q; reflexivity.
        -- reflexivity.
    + apply Hkeep; [exact H|]. intros; discriminate.
Qed.

Lemma consistency_reset_ok old pams : forall new,
  (forall p, In p pams -> dmem new p = true -> dmem old p = true) ->
  exists new', consistency_reset old new pams = Ok new'.
Proof.
  induction pams as [|p r IH]; simpl; intros new H; [eauto|].
  destruct (dget new p) as [v|] eqn:N.
  - assert (M : dmem old p = true) by (apply H; [now left | unfold dmem; now rewrite N]).
    apply dmem_true in M. destruct M as [w O]; rewrite O.
    destruct (py_eqb v w); apply IH; intros q Hq Hm; apply H; auto.
    unfold dmem in *; rewrite dget_dset in Hm. destruct (String.eqb p q) eqn:E; [|exact Hm].
    apply String.eqb_eq in E; subst; now rewrite N.
  - apply IH; intros q Hq; apply H; auto.
Qed.

Lemma consistency_fill_get old : wf old -> forall new k,
  dget (consistency_fill old new) k = match dget new k with Some v => Some v | None => dget old k end.
Proof.
  unfold consistency_fill; induction old as [|[k0 v0] r IH]; simpl; intros Hwf new k;
    [destruct (dget new k); reflexivity|].
  inversion Hwf as [|? ? Hn Hwf']; subst. rewrite IH by exact Hwf'.
  assert (Hr : dget r k0 = None) by (apply dget_None_keys; exact Hn).
  unfold dmem. destruct (dget new k0) as [w|] eqn:N.
  - destruct (dget new k) eqn:G; [reflexivity|].
    destruct (String.eqb k0 k) eqn:E; [|reflexivity].
    apply String.eqb_eq in E; subst; congruence.
  - rewrite dget_dset. destruct (String.eqb k0 k) eqn:E; [|reflexivity].
    apply String.eqb_eq in E; subst; rewrite N; reflexivity.
Qed.

Lemma consistency_fill_wf old : forall new, wf new -> wf (consistency_fill old new).
Proof.
  unfold consistency_fill; induction old as [|[k0 v0] r IH]; simpl; intros new H; [exact H|].
  apply IH; destruct (dmem new k0); auto using wf_dset.
Qed.

Lemma consistency_reset_wf old pams : forall new new', wf new ->
  consistency_reset old new pams = Ok new' -> wf new'.
Proof.
  induction pams as [|p r IH]; simpl; intros new new' H E; [injection E as <-; exact H|].
  destruct (dget new p); [|eapply IH; eauto]. destruct (dget old p); [|discriminate].
  destruct (py_eqb _ _); eapply IH; try exact E; auto using wf_dset.
Qed.

Lemma pams_cant_change_nodup : NoDup pams_cant_change.
Proof. repeat (constructor; [simpl; intuition discriminate|]). constructor. Qed.

(** regional *)
Lemma avoid_regional_get gases d k :
  dget (avoid_regional gases d) k =
  if (String.eqb "qdirso2" k && has_regional gases "SO2") then Some (flt 0 1)
  else if (String.eqb "qbc" k && has_regional gases "BC") then Some (flt 0 1)
  else if (String.eqb "qoc" k && has_regional gases "OC") then Some (flt 0 1)
  else dget d k.
Proof.
  unfold avoid_regional, regional_aerosols; cbn [fold_left fst snd].
  destruct (has_regional gases "SO2"), (has_regional gases "BC"), (has_regional gases "OC");
    rewrite ?dget_dset, ?Bool.andb_true_r, ?Bool.andb_false_r;
    destruct (String.eqb "qdirso2" k) eqn:E1; destruct (String.eqb "qbc" k) eqn:E2;
    destruct (String.eqb "qoc" k) eqn:E3; try reflexivity.
Qed.

Lemma avoid_regional_wf gases d : wf d -> wf (avoid_regional gases d).
Proof.
  unfold avoid_regional, regional_aerosols; cbn [fold_left fst snd]; intros H.
  destruct (has_regional gases "SO2"), (has_regional gases "BC"), (has_regional gases "OC"); auto using wf_dset.
Qed.

Lemma avoid_regional_other gases d k : k <> "qdirso2" -> k <> "qbc" -> k <> "qoc" ->
  dget (avoid_regional gases d) k = dget d k.
Proof.
  intros H1 H2 H3. rewrite avoid_regional_get.
  destruct (String.eqb "qdirso2" k) eqn:E1; [apply String.eqb_eq in E1; congruence|].
  destruct (String.eqb "qbc" k) eqn:E2; [apply String.eqb_eq in E2; congruence|].
  destruct (String.eqb "qoc" k) eqn:E3; [apply String.eqb_eq in E3; congruence|]. reflexivity.
Qed.

Opaque consistency_reset consistency_fill avoid_regional.

(** State invariant of an instance *)
Definition hinv (d : dict pyval) : Prop :=
  wf d /\ (forall k, In k ["idtm"; "nystart"; "nyend"; "emstart"] -> exists v, dget d k = Some v /\ is_num v = true)
  /\ exists v, dget d "conc_run" = Some v.

Lemma handler_init_get env p k : k <> "conc_run" -> k <> "forc_pert" -> k <> "cl_dict" -> k <> "br_dict" ->
  k <> "qdirso2" -> k <> "qbc" -> k <> "qoc" ->
  dget (handler_init env p) k = dget (check_pamset p) k.
Proof.
  intros; unfold handler_init. rewrite avoid_regional_other by assumption.
  rewrite !dget_dset_neq by congruence. destruct (env_forc_pert env); rewrite ?dget_dset_neq by congruence; reflexivity.
Qed.

Lemma handler_init_wf env p : wf (handler_init env p).
Proof.
  unfold handler_init; apply avoid_regional_wf. destruct (env_forc_pert env);
    repeat apply wf_dset; apply check_pamset_wf.
Qed.

Lemma handler_init_conc env p : dget (handler_init env p) "conc_run" = Some (env_conc_run env).
Proof.
  unfold handler_init. rewrite avoid_regional_other by discriminate.
  rewrite !dget_dset_neq by discriminate.
  destruct (env_forc_pert env); rewrite ?(dget_dset_neq _ "forc_pert" "conc_run") by discriminate; apply dget_dset_eq.
Qed.

Lemma window_req_num k : In k ["idtm"; "nystart"; "nyend"; "emstart"] ->
  exists d, dget handler_required k = Some d /\ is_num d = true.
Proof.
  intros H; destruct H as [<-|[<-|[<-|[<-|[]]]]]; eexists; split; try reflexivity.
Qed.

Lemma num_or_num p k d : is_num d = true -> is_num (num_or p k d) = true.
Proof.
  intros H; unfold num_or. destruct (given p k) as [v|]; [|exact H]. destruct (is_num v) eqn:E; assumption.
Qed.

Lemma handler_init_inv env p : opt_wf p -> hinv (handler_init env p).
Proof.
  intros H; split; [apply handler_init_wf|split].
  - intros k Hk. destruct (window_req_num k Hk) as [d [Hd Hn]].
    exists (num_or p k d); split; [|apply num_or_num, Hn].
    rewrite handler_init_get; [apply check_pamset_required; assumption|..];
      destruct Hk as [<-|[<-|[<-|[<-|[]]]]]; discriminate.
  - eexists; apply handler_init_conc.
Qed.

Lemma handler_rerun_ok env cur p : opt_wf p -> hinv cur -> exists d, handler_rerun env cur p = Ok d.
Proof.
  intros Hp (Hwf & Hwin & Hcr). unfold handler_rerun, check_pamset_consistency.
  destruct (consistency_reset_ok cur pams_cant_change (check_pamset p)) as [new' Hn].
  - intros q Hq _. simpl in Hq.
    destruct Hq as [<-|[<-|[<-|[<-|[<-|[]]]]]]; apply dmem_true.
    + destruct (Hwin "idtm") as [v [Hv _]]; [simpl; tauto | eauto].
    + destruct (Hwin "nystart") as [v [Hv _]]; [simpl; tauto | eauto].
    + destruct (Hwin "nyend") as [v [Hv _]]; [simpl; tauto | eauto].
    + destruct (Hwin "emstart") as [v [Hv _]]; [simpl; tauto | eauto].
    + exact Hcr.
  - rewrite Hn; simpl. eauto.
Qed.

Lemma handler_rerun_get env cur p d : opt_wf p -> hinv cur -> handler_rerun env cur p = Ok d -> forall k,
  k <> "qdirso2" -> k <> "qbc" -> k <> "qoc" ->
  dget d k =
  if smem k pams_cant_change then
    match dget (check_pamset p) k, dget cur k with
    | Some v, Some w => Some (if py_eqb v w then v else w)
    | Some v, None => Some v
    | None, o => o end
  else match dget (check_pamset p) k with Some v => Some v | None => dget cur k end.
Proof.
  intros Hp (Hwf & Hwin & Hcr) H k N1 N2 N3. unfold handler_rerun, check_pamset_consistency in H.
  destruct (consistency_reset cur (check_pamset p) pams_cant_change) as [new'|e] eqn:E; [|discriminate].
  simpl in H. injection H as <-.
  rewrite avoid_regional_other by assumption.
  rewrite consistency_fill_get by exact Hwf.
  rewrite (consistency_reset_get _ _ pams_cant_change_nodup _ _ E).
  destruct (smem k pams_cant_change); [|reflexivity].
  destruct (dget (check_pamset p) k); [destruct (dget cur k)|]; reflexivity.
Qed.

Lemma handler_rerun_regional env cur p d k q : opt_wf p -> hinv cur -> handler_rerun env cur p = Ok d ->
  In (k, q) regional_aerosols -> dget d q = Some (if has_regional (env_gases env) k then flt 0 1
     else num_or p q (match dget handler_required q with Some x => x | None => VNone end)).
Proof.
  intros Hp (Hwf & Hwin & Hcr) H Hin. unfold handler_rerun, check_pamset_consistency in H.
  destruct (consistency_reset cur (check_pamset p) pams_cant_change) as [new'|e] eqn:E; [|discriminate].
  simpl in H. injection H as <-.
  assert (G : forall q0 d0, dget handler_required q0 = Some d0 -> smem q0 pams_cant_change = false ->
     dget (consistency_fill cur new') q0 = Some (num_or p q0 d0)).
  { intros q0 d0 R S. rewrite consistency_fill_get by exact Hwf.
    rewrite (consistency_reset_get _ _ pams_cant_change_nodup _ _ E), S.
    rewrite (check_pamset_required p q0 d0 Hp R). reflexivity. }
  rewrite avoid_regional_get.
  simpl in Hin; destruct Hin as [Hi|[Hi|[Hi|[]]]]; injection Hi as <- <-; cbn [String.eqb Ascii.eqb Bool.eqb andb];
    match goal with |- context [has_regional ?g ?a] => destruct (has_regional g a); [reflexivity|] end;
    apply G; reflexivity.
Qed.

Lemma handler_rerun_inv env cur p d : opt_wf p -> hinv cur -> handler_rerun env cur p = Ok d -> hinv d.
Proof.
  intros Hp Hinv H. destruct Hinv as (Hwf & Hwin & v0 & Hcr).
  assert (Hinv : hinv cur) by (split; [|split]; eauto).
  split; [|split].
  - unfold handler_rerun, check_pamset_consistency in H.
    destruct (consistency_reset cur (check_pamset p) pams_cant_change) as [new'|e] eqn:E; [|discriminate].
    simpl in H; injection H as <-. apply avoid_regional_wf, consistency_fill_wf.
    eapply consistency_reset_wf; [|exact E]. apply check_pamset_wf.
  - intros k Hk. destruct (Hwin k Hk) as [w [Hw Hnw]]. destruct (window_req_num k Hk) as [d0 [Hd Hn]].
    rewrite (handler_rerun_get env cur p d Hp Hinv H) by (destruct Hk as [<-|[<-|[<-|[<-|[]]]]]; discriminate).
    rewrite (check_pamset_required p k d0 Hp Hd), Hw.
    assert (S : smem k pams_cant_change = true) by (apply smem_In; simpl in *; tauto).
    rewrite S. eexists; split; [reflexivity|].
    destruct (py_eqb _ _); [apply num_or_num, Hn | exact Hnw].
  - exists v0. rewrite (handler_rerun_get env cur p d Hp Hinv H) by discriminate.
    rewrite check_pamset_conc_run by exact Hp. rewrite Hcr. reflexivity.
Qed.

Lemma handler_reruns_snoc env hist p : forall cur,
  handler_reruns env cur (hist ++ [p]) =
  rbind (handler_reruns env cur hist) (fun d => handler_rerun env d p).
Proof.
  induction hist as [|q r IH]; simpl; intros cur.
  - destruct (handler_rerun env cur p); reflexivity.
  - destruct (handler_rerun env cur q); simpl; [apply IH | reflexivity].
Qed.

Lemma handler_reruns_inv env hist : forall cur d, Forall opt_wf hist -> hinv cur ->
  handler_reruns env cur hist = Ok d -> hinv d.
Proof.
  induction hist as [|p r IH]; simpl; intros cur d Hf Hi H; [injection H as <-; exact Hi|].
  inversion Hf as [|? ? Hp Hr]; subst. destruct (handler_rerun env cur p) as [c|] eqn:E; [|discriminate]; simpl in H.
  apply (IH c d Hr); [|exact H]. exact (handler_rerun_inv env cur p c Hp Hi E).
Qed.

Lemma handler_reruns_ok env hist : forall cur, Forall opt_wf hist -> hinv cur ->
  exists d, handler_reruns env cur hist = Ok d.
Proof.
  induction hist as [|p r IH]; simpl; intros cur Hf Hi; [eauto|].
  inversion Hf as [|? ? Hp Hr]; subst. destruct (handler_rerun_ok env cur p) as [c E]; auto.
  rewrite E; simpl; apply IH; [exact Hr|]. exact (handler_rerun_inv env cur p c Hp Hi E).
Qed.

(** python equality of numbers, strengthened to a usable relation: same object or equal *)
Definition same_value (v w : pyval) : Prop := v = w \/ py_eqb v w = true.

Lemma is_num_num v : is_num v = true -> exists x, num_of v = Some x.
Proof. destruct v; simpl; intros H; try discriminate; eauto. Qed.

Lemma same_value_trans u v w : is_num u = true -> is_num v = true -> is_num w = true ->
  same_value u v -> same_value v w -> same_value u w.
Proof.
  intros Nu Nv Nw [->|H1] [->|H2]; unfold same_value; auto. right.
  destruct (is_num_num _ Nu) as [x X], (is_num_num _ Nv) as [y Y], (is_num_num _ Nw) as [z Z].
  rewrite (py_eqb_num_l u w _ X). rewrite (py_eqb_num_l u v _ X) in H1. rewrite (py_eqb_num_l v w _ Y) in H2.
  rewrite Y in H1; rewrite Z in H2; rewrite Z. eapply float_eqb_trans; eauto.
Qed.

Lemma window_invariant env hist : forall cur d k, Forall opt_wf hist -> hinv cur ->
  handler_reruns env cur hist = Ok d -> In k ["idtm"; "nystart"; "nyend"; "emstart"] ->
  exists v w, dget cur k = Some w /\ dget d k = Some v /\ same_value v w.
Proof.
  induction hist as [|p r IH]; simpl; intros cur d k Hf Hi H Hk.
  - injection H as <-. destruct Hi as (_ & Hw & _). destruct (Hw k Hk) as [v [Hv _]].
    exists v, v; repeat split; [exact Hv | exact Hv | left; reflexivity].
  - inversion Hf as [|? ? H2 H3]; subst. destruct (handler_rerun env cur p) as [c|] eqn:E; [|discriminate]; simpl in H.
    pose proof (handler_rerun_inv env cur p c H2 Hi E) as Hci.
    pose proof Hci as Hc.
    destruct (IH c d k) as (v & w & Hcw & Hdv & Hs); auto.
    destruct Hi as (Hwf & Hwin & Hcr). assert (Hi : hinv cur) by (split; auto).
    destruct (Hwin k Hk) as [w0 [Hw0 Hn0]]. destruct (window_req_num k Hk) as [d0 [Hd0 Hnd]].
    exists v, w0; repeat split; auto.
    pose proof (handler_rerun_get env cur p c H2 Hi E k) as G.
    rewrite (check_pamset_required p k d0 H2 Hd0), Hw0 in G.
    assert (S : smem k pams_cant_change = true) by (apply smem_In; simpl in *; tauto).
    rewrite S in G. rewrite Hcw in G.
    assert (Hw : Some w = Some (if py_eqb (num_or p k d0) w0 then num_or p k d0 else w0))
      by (apply G; destruct Hk as [<-|[<-|[<-|[<-|[]]]]]; discriminate).
    injection Hw as Hw.
    destruct Hc as (_ & Hcwin & _). destruct (Hcwin k Hk) as [w' [Hw' Hnw]].
    assert (w' = w) by congruence; subst w'.
    assert (Hd : hinv d) by exact (handler_reruns_inv env r c d H3 Hci H).
    destruct Hd as (_ & Hdwin & _). destruct (Hdwin k Hk) as [v' [Hv' Hnv]].
    assert (v' = v) by congruence; subst v'.
    apply (same_value_trans v w w0 Hnv Hnw Hn0 Hs).
    rewrite Hw. destruct (py_eqb (num_or p k d0) w0) eqn:Q; [right; exact Q | left; reflexivity].
Qed.

Lemma conc_run_invariant env hist : forall cur d, Forall opt_wf hist -> hinv cur ->
  handler_reruns env cur hist = Ok d -> dget d "conc_run" = dget cur "conc_run".
Proof.
  induction hist as [|p r IH]; simpl; intros cur d Hf Hi H; [injection H as <-; reflexivity|].
  inversion Hf as [|? ? H2 H3]; subst. destruct (handler_rerun env cur p) as [c|] eqn:E; [|discriminate]; simpl in H.
    pose proof (handler_rerun_inv env cur p c H2 Hi E) as Hci.
  rewrite (IH c d) by eauto.
  rewrite (handler_rerun_get env cur p c H2 Hi E) by discriminate.
  rewrite check_pamset_conc_run by assumption. destruct (dget cur "conc_run"); reflexivity.
Qed.

Theorem c04_window env init hist d : opt_wf init -> Forall opt_wf hist ->
  handler_reruns env (handler_init env init) hist = Ok d ->
  (forall k, In k ["idtm"; "nystart"; "nyend"; "emstart"] ->
     exists v w, dget (handler_init env init) k = Some w /\ dget d k = Some v /\ same_value v w) /\
  dget d "conc_run" = Some (env_conc_run env).
Proof.
  intros Hi Hf H; split.
  - intros k Hk; exact (window_invariant env hist _ d k Hf (handler_init_inv env init Hi) H Hk).
  - rewrite (conc_run_invariant _ _ _ _ Hf (handler_init_inv env init Hi) H). apply handler_init_conc.
Qed.

(** C05 *)
Definition fresh_keys : list string :=
  ["qbmb"; "qo3"; "qindso2"; "qh2o_ch4"; "ref_yr"; "qnmvoc"; "qnh3"; "qnox"].

Lemma fresh_after env init hist p d k : opt_wf init -> Forall opt_wf hist -> opt_wf p ->
  handler_reruns env (handler_init env init) (hist ++ [p]) = Ok d -> In k fresh_keys ->
  exists dflt, dget handler_required k = Some dflt /\ dget d k = Some (num_or p k dflt).
Proof.
  intros Hi Hf Hp H Hk. rewrite handler_reruns_snoc in H.
  destruct (handler_reruns env (handler_init env init) hist) as [c|] eqn:E; [|discriminate]; simpl in H.
  assert (Hc : hinv c) by exact (handler_reruns_inv env hist _ c Hf (handler_init_inv env init Hi) E).
  assert (Hd : exists dflt, dget handler_required k = Some dflt).
  { simpl in Hk; repeat (destruct Hk as [<-|Hk]; [eexists; reflexivity|]); contradiction. }
  destruct Hd as [dflt Hd]. exists dflt; split; [exact Hd|].
  rewrite (handler_rerun_get env c p d Hp Hc H)
    by (simpl in Hk; repeat (destruct Hk as [<-|Hk]; [discriminate|]); contradiction).
  assert (S : smem k pams_cant_change = false)
    by (simpl in Hk; repeat (destruct Hk as [<-|Hk]; [reflexivity|]); contradiction).
  rewrite S, (check_pamset_required p k dflt Hp Hd). reflexivity.
Qed.

Lemma lifetime_after env init hist p d : opt_wf init -> Forall opt_wf hist -> opt_wf p ->
  handler_reruns env (handler_init env init) (hist ++ [p]) = Ok d ->
  dget d "lifetime_mode" = Some (match given p "lifetime_mode" with Some v => v | None => VStr "TAR" end).
Proof.
  intros Hi Hf Hp H. rewrite handler_reruns_snoc in H.
  destruct (handler_reruns env (handler_init env init) hist) as [c|] eqn:E; [|discriminate]; simpl in H.
  assert (Hc : hinv c) by exact (handler_reruns_inv env hist _ c Hf (handler_init_inv env init Hi) E).
  rewrite (handler_rerun_get env c p d Hp Hc H) by discriminate.
  rewrite (check_pamset_lifetime p Hp). reflexivity.
Qed.

Lemma just_one_reruns env hist : forall cur d, Forall opt_wf hist -> hinv cur ->
  handler_reruns env cur hist = Ok d ->
  dget d "just_one" = spec_last_any "just_one" (dget cur "just_one") hist.
Proof.
  induction hist as [|p r IH]; simpl; intros cur d Hf Hi H; [injection H as <-; reflexivity|].
  inversion Hf as [|? ? H2 H3]; subst. destruct (handler_rerun env cur p) as [c|] eqn:E; [|discriminate]; simpl in H.
    pose proof (handler_rerun_inv env cur p c H2 Hi E) as Hci.
  rewrite (IH c d) by eauto.
  rewrite (handler_rerun_get env cur p c H2 Hi E) by discriminate.
  rewrite (check_pamset_just_one p H2). simpl.
  unfold given; destruct p as [q|]; [destruct (dget q "just_one")|]; reflexivity.
Qed.

Lemma just_one_history env init hist d : opt_wf init -> Forall opt_wf hist ->
  handler_reruns env (handler_init env init) hist = Ok d ->
  dget d "just_one" = spec_last_any "just_one" None (init :: hist).
Proof.
  intros Hi Hf H. rewrite (just_one_reruns _ _ _ _ Hf (handler_init_inv env init Hi) H).
  rewrite handler_init_get by discriminate. rewrite check_pamset_just_one by exact Hi.
  simpl. destruct init as [q|]; simpl; [destruct (dget q "just_one")|]; reflexivity.
Qed.

(** The total of these runs never raises. *)
Lemma reruns_total env init hist : opt_wf init -> Forall opt_wf hist ->
  exists d, handler_reruns env (handler_init env init) hist = Ok d.
Proof. intros; apply handler_reruns_ok; auto using handler_init_inv. Qed.

Lemma regional_after env init hist p d k q : opt_wf init -> Forall opt_wf hist -> opt_wf p ->
  handler_reruns env (handler_init env init) (hist ++ [p]) = Ok d ->
  In (k, q) regional_aerosols ->
  dget d q = Some (if has_regional (env_gases env) k then flt 0 1
     else num_or p q (match dget handler_required q with Some x => x | None => VNone end)).
Proof.
  intros Hi Hf Hp H Hin. rewrite handler_reruns_snoc in H.
  destruct (handler_reruns env (handler_init env init) hist) as [c|] eqn:E; [|discriminate]; simpl in H.
  refine (handler_rerun_regional env c p d k q Hp _ H Hin). exact (handler_reruns_inv env hist _ c Hf (handler_init_inv env init Hi) E).
Qed.

Lemma regional_init env init k q : opt_wf init -> In (k, q) regional_aerosols ->
  dget (handler_init env init) q = Some (if has_regional (env_gases env) k then flt 0 1
     else num_or init q (match dget handler_required q with Some x => x | None => VNone end)).
Proof.
  intros Hp Hin.
  assert (G : forall q0 d0, dget handler_required q0 = Some d0 -> q0 <> "conc_run" -> q0 <> "forc_pert" ->
     q0 <> "cl_dict" -> q0 <> "br_dict" ->
     dget (dset (dset (match env_forc_pert env with Some o => dset (dset (check_pamset init) "conc_run" (env_conc_run env)) "forc_pert" o
        | None => dset (check_pamset init) "conc_run" (env_conc_run env) end) "cl_dict" (env_cl env)) "br_dict" (env_br env)) q0
     = Some (num_or init q0 d0)).
  { intros q0 d0 R N1 N2 N3 N4. rewrite !dget_dset_neq by congruence.
    destruct (env_forc_pert env); rewrite ?dget_dset_neq by congruence; apply check_pamset_required; assumption. }
  unfold handler_init; rewrite avoid_regional_get.
  simpl in Hin; destruct Hin as [Hi|[Hi|[Hi|[]]]]; injection Hi as <- <-; cbn [String.eqb Ascii.eqb Bool.eqb andb];
    match goal with |- context [has_regional ?g ?a] => destruct (has_regional g a); [reflexivity|] end;
    apply G; first [reflexivity | discriminate].
Qed.
