(** * Facts about PyBase *)
From Verif Require Import PyBase.

Lemma eqb_sym_s a b : String.eqb a b = String.eqb b a.
Proof. apply String.eqb_sym. Qed.

Lemma smem_In k l : smem k l = true <-> In k l.
Proof.
  unfold smem; rewrite existsb_exists; split.
  - intros [x [Hx He]]; apply String.eqb_eq in He; now subst.
  - intros H; exists k; split; [exact H | apply String.eqb_refl].
Qed.

Lemma dget_dset_eq {V} (d : dict V) k v : dget (dset d k v) k = Some v.
Proof.
  induction d as [|[k' v'] r IH]; simpl.
  - now rewrite String.eqb_refl.
  - destruct (String.eqb k' k) eqn:E; simpl; rewrite E; auto.
Qed.

Lemma dget_dset_neq {V} (d : dict V) k k' v : k <> k' -> dget (dset d k v) k' = dget d k'.
Proof.
  intros Hne; induction d as [|[k0 v0] r IH]; simpl.
  - destruct (String.eqb k k') eqn:E; [apply String.eqb_eq in E; contradiction | reflexivity].
  - destruct (String.eqb k0 k) eqn:E; simpl.
    + apply String.eqb_eq in E; subst k0.
      destruct (String.eqb k k') eqn:E2; [apply String.eqb_eq in E2; contradiction | reflexivity].
    + destruct (String.eqb k0 k'); auto.
Qed.

Lemma dget_dset {V} (d : dict V) k k' v :
  dget (dset d k v) k' = if String.eqb k k' then Some v else dget d k'.
Proof.
  destruct (String.eqb k k') eqn:E.
  - apply String.eqb_eq in E; subst; apply dget_dset_eq.
  - apply dget_dset_neq; intros ->; now rewrite String.eqb_refl in E.
Qed.

Lemma dmem_true {V} (d : dict V) k : dmem d k = true <-> exists v, dget d k = Some v.
Proof.
  unfold dmem; destruct (dget d k); split; intros H; eauto; try discriminate.
  now destruct H.
Qed.

Lemma dmem_false {V} (d : dict V) k : dmem d k = false <-> dget d k = None.
Proof. unfold dmem; destruct (dget d k); split; intros H; auto; discriminate. Qed.

Lemma dget_In_keys {V} (d : dict V) k : dmem d k = true <-> In k (dkeys d).
Proof.
  unfold dmem, dkeys; induction d as [|[k' v'] r IH]; simpl.
  - split; [discriminate | tauto].
  - destruct (String.eqb k' k) eqn:E.
    + apply String.eqb_eq in E; subst; tauto.
    + rewrite IH; split; [auto|]. intros [->|H]; auto.
      now rewrite String.eqb_refl in E.
Qed.

Lemma dget_None_keys {V} (d : dict V) k : dget d k = None <-> ~ In k (dkeys d).
Proof. rewrite <- dget_In_keys, <- dmem_false; destruct (dmem d k); intuition congruence. Qed.

Lemma dget_Some_In {V} (d : dict V) k v : dget d k = Some v -> In (k, v) d.
Proof.
  induction d as [|[k' v'] r IH]; simpl; [discriminate|].
  destruct (String.eqb k' k) eqn:E; intros H.
  - apply String.eqb_eq in E; subst; left; congruence.
  - right; auto.
Qed.

Lemma wf_In_dget {V} (d : dict V) k v : wf d -> In (k, v) d -> dget d k = Some v.
Proof.
  unfold wf, dkeys; induction d as [|[k' v'] r IH]; simpl; [tauto|].
  intros Hnd [H|H]; inversion Hnd as [|? ? Hn Hnd']; subst.
  - injection H as -> ->; now rewrite String.eqb_refl.
  - destruct (String.eqb k' k) eqn:E.
    + apply String.eqb_eq in E; subst. exfalso; apply Hn.
      apply (in_map fst) in H; exact H.
    + auto.
Qed.

Lemma dkeys_dset {V} (d : dict V) k v :
  dkeys (dset d k v) = if dmem d k then dkeys d else dkeys d ++ [k].
Proof.
  unfold dkeys, dmem; induction d as [|[k' v'] r IH]; simpl; [reflexivity|].
  destruct (String.eqb k' k) eqn:E; simpl; [reflexivity|].
  rewrite IH; destruct (dget r k); reflexivity.
Qed.

Lemma NoDup_snoc {A} (l : list A) x : NoDup l -> ~ In x l -> NoDup (l ++ [x]).
Proof.
  induction l as [|y l IH]; simpl; intros Hn Hx; [repeat constructor; auto|].
  inversion Hn; subst; constructor.
  - rewrite in_app_iff; simpl; intuition.
  - apply IH; auto.
Qed.

Lemma wf_dset {V} (d : dict V) k v : wf d -> wf (dset d k v).
Proof.
  unfold wf; intros H; rewrite dkeys_dset; destruct (dmem d k) eqn:E; [exact H|].
  apply NoDup_snoc; [exact H|]. rewrite <- dget_In_keys; congruence.
Qed.

Lemma wf_nil {V} : wf (@nil (string * V)).
Proof. constructor. Qed.

Lemma wf_dupdate {V} (e d : dict V) : wf d -> wf (dupdate d e).
Proof.
  unfold dupdate; revert d; induction e as [|[k v] r IH]; simpl; intros d H; [exact H|].
  apply IH, wf_dset, H.
Qed.

Lemma dget_dupdate {V} (e d : dict V) k :
  wf e -> dget (dupdate d e) k = match dget e k with Some v => Some v | None => dget d k end.
Proof.
  unfold dupdate, wf; revert d; induction e as [|[k' v'] r IH]; simpl; intros d H; [reflexivity|].
  inversion H as [|? ? Hn H']; subst. rewrite IH by exact H'. simpl.
  rewrite dget_dset. destruct (String.eqb k' k) eqn:E.
  - apply String.eqb_eq in E; subst.
    destruct (dget r k) eqn:G; [|reflexivity].
    exfalso; apply Hn. change (In k (dkeys r)). apply dget_In_keys; apply dmem_true; eauto.
  - reflexivity.
Qed.

Lemma dkeys_filter_sub {V} (f : string * V -> bool) d k : In k (dkeys (filter f d)) -> In k (dkeys d).
Proof.
  unfold dkeys; rewrite !in_map_iff; intros [x [Hx Hi]]; apply filter_In in Hi; exists x; tauto.
Qed.

Lemma wf_filter {V} (f : string * V -> bool) d : wf d -> wf (filter f d).
Proof.
  unfold wf; induction d as [|x r IH]; simpl; intros H; [constructor|].
  inversion H as [|? ? Hn H']; subst. destruct (f x); simpl; [|auto].
  constructor; [|auto]. intros Hin. apply Hn, (dkeys_filter_sub f), Hin.
Qed.

Lemma dget_filter_key {V} (p : string -> bool) (d : dict V) k :
  dget (filter (fun kv => p (fst kv)) d) k = if p k then dget d k else None.
Proof.
  induction d as [|[k' v'] r IH]; simpl; [destruct (p k); reflexivity|].
  destruct (p k') eqn:P; simpl; destruct (String.eqb k' k) eqn:E.
  - apply String.eqb_eq in E; subst; rewrite P; reflexivity.
  - exact IH.
  - apply String.eqb_eq in E; subst; rewrite P in *; exact IH.
  - exact IH.
Qed.

Lemma dget_ddel {V} (d : dict V) k k' : wf d ->
  dget (ddel d k) k' = if String.eqb k k' then None else dget d k'.
Proof.
  unfold wf; induction d as [|[k0 v0] r IH]; simpl; intros H; [destruct (String.eqb k k'); reflexivity|].
  inversion H as [|? ? Hn H']; subst.
  destruct (String.eqb k0 k) eqn:E.
  - apply String.eqb_eq in E; subst. destruct (String.eqb k k') eqn:E2; [|reflexivity].
    apply String.eqb_eq in E2; subst. apply dget_None_keys, Hn.
  - simpl. destruct (String.eqb k0 k') eqn:E2.
    + apply String.eqb_eq in E2; subst. rewrite (String.eqb_sym k k'), E. reflexivity.
    + apply IH, H'.
Qed.

Lemma ddel_keys {V} (d : dict V) k x : In x (dkeys (ddel d k)) -> In x (dkeys d).
Proof.
  unfold dkeys; induction d as [|[k0 v0] r IH]; simpl; [tauto|].
  destruct (String.eqb k0 k); simpl; intuition.
Qed.

Lemma wf_ddel {V} (d : dict V) k : wf d -> wf (ddel d k).
Proof.
  unfold wf; induction d as [|[k0 v0] r IH]; simpl; intros H; [exact H|].
  inversion H as [|? ? Hn H']; subst.
  destruct (String.eqb k0 k); [exact H'|]. simpl; constructor; [|auto].
  intros Hin; apply Hn, (ddel_keys r k), Hin.
Qed.

Lemma float_eqb_trans a b c : float_eqb a b = true -> float_eqb b c = true -> float_eqb a c = true.
Proof.
  destruct a, b, c; simpl; try discriminate; intros H1 H2.
  - apply Qeq_bool_iff in H1, H2; apply Qeq_bool_iff; now rewrite H1.
  - apply eqb_prop in H1, H2; subst; apply eqb_reflx.
Qed.

Lemma float_eqb_sym a b : float_eqb a b = float_eqb b a.
Proof.
  destruct a, b; simpl; try reflexivity.
  - destruct (Qeq_bool q q0) eqn:E.
    + apply Qeq_bool_iff in E; symmetry; apply Qeq_bool_iff; now symmetry.
    + destruct (Qeq_bool q0 q) eqn:E2; [|reflexivity].
      apply Qeq_bool_iff in E2; symmetry in E2; apply Qeq_bool_iff in E2; congruence.
  - destruct positive, positive0; reflexivity.
Qed.

(** python equality of two numbers. *)
Lemma py_eqb_num a b x : num_of b = Some x ->
  py_eqb a b = match num_of a with Some y => float_eqb y x | None => false end.
Proof. intros H; destruct a; simpl; rewrite H; reflexivity. Qed.

Lemma py_eqb_num_l a b x : num_of a = Some x ->
  py_eqb a b = match num_of b with Some y => float_eqb x y | None => false end.
Proof.
  intros H; destruct a; simpl in *; try discriminate H; injection H as <-;
    destruct (num_of b) eqn:E; try rewrite E; reflexivity.
Qed.

(** Decidable well-formedness, for literals. *)
Fixpoint nodupb (l : list string) : bool :=
  match l with [] => true | x :: r => negb (smem x r) && nodupb r end.

Lemma nodupb_NoDup l : nodupb l = true -> NoDup l.
Proof.
  induction l as [|x r IH]; simpl; intros H; [constructor|].
  apply andb_prop in H; destruct H as [H1 H2]. constructor; [|auto].
  rewrite <- smem_In. destruct (smem x r); [discriminate | congruence].
Qed.

Lemma wf_lit {V} (d : dict V) : nodupb (dkeys d) = true -> wf d.
Proof. apply nodupb_NoDup. Qed.
