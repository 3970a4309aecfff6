(** * P_Flat: proofs about flat carbon-cycle parameters *)
From Coq Require Import Sorted Permutation.
From Verif Require Import PyBase PyBaseFacts M_Flat.

Lemma nth_put_at {V} idx : forall (l : list (option V)) v i,
  nth i (put_at l idx v) None = if Nat.eqb i idx then v else nth i l None.
Proof.
  induction idx as [|idx IH]; intros l v i; destruct l as [|x r]; destruct i as [|i]; simpl; auto;
    try (rewrite IH; destruct (Nat.eqb i idx); auto; destruct i; reflexivity).
  destruct i; reflexivity.
Qed.

Fixpoint enum {V} (s : nat) (l : list (option V)) : list (nat * V) :=
  match l with
  | [] => []
  | Some v :: r => (s, v) :: enum (S s) r
  | None :: r => enum (S s) r
  end.

Lemma compact_enum {V} (l : list (option V)) : forall s, compact l = map snd (enum s l).
Proof. induction l as [|[v|] r IH]; intros s; simpl; [reflexivity| f_equal; apply IH | apply IH]. Qed.

Lemma In_enum {V} (l : list (option V)) : forall s i v,
  In (i, v) (enum s l) <-> (s <= i /\ nth (i - s) l None = Some v).
Proof.
  induction l as [|o r IH]; intros s i v; simpl.
  - split; [tauto|]. intros [_ H]. destruct (i - s); discriminate.
  - assert (Hr : In (i, v) (enum (S s) r) <-> S s <= i /\ nth (i - S s) r None = Some v) by apply IH.
    destruct o as [w|]; simpl; rewrite Hr; clear Hr IH.
    + split.
      * intros [H|[H1 H2]].
        -- injection H as -> ->. rewrite Nat.sub_diag. auto.
        -- split; [lia|]. replace (i - s) with (S (i - S s)) by lia. exact H2.
      * intros [H1 H2]. destruct (Nat.eq_dec i s) as [->|Hne].
        -- rewrite Nat.sub_diag in H2. injection H2 as ->. now left.
        -- right. split; [lia|]. replace (i - s) with (S (i - S s)) in H2 by lia. exact H2.
    + split.
      * intros [H1 H2]. split; [lia|]. replace (i - s) with (S (i - S s)) by lia. exact H2.
      * intros [H1 H2]. destruct (Nat.eq_dec i s) as [->|Hne].
        -- rewrite Nat.sub_diag in H2. discriminate.
        -- split; [lia|]. replace (i - s) with (S (i - S s)) in H2 by lia. exact H2.
Qed.

Lemma enum_sorted {V} (l : list (option V)) : forall s, StronglySorted lt (map fst (enum s l)).
Proof.
  induction l as [|[v|] r IH]; intros s; simpl; [constructor | | apply IH].
  constructor; [apply IH|]. rewrite Forall_forall. intros j Hj.
  apply in_map_iff in Hj. destruct Hj as [[i w] [<- Hi]]. apply In_enum in Hi. simpl; lia.
Qed.

(** Index uniqueness among the flat keys of a prefix. *)
Definition idx_unique (p : dict pyval) (prefix : string) : Prop :=
  forall k1 k2, In k1 (dkeys p) -> In k2 (dkeys p) -> flat_key prefix k1 = true -> flat_key prefix k2 = true ->
    flat_idx prefix k1 = flat_idx prefix k2 -> k1 = k2.

Definition ext_step (prefix : string) (acc : list (option pyval) * list string) (kv : string * pyval) :=
  let '(values, keys) := acc in
  if flat_key prefix (fst kv)
  then (put_at values (flat_idx prefix (fst kv)) (opt_of_val (snd kv)), keys ++ [fst kv])
  else acc.

Lemma ext_keys prefix p : forall values keys,
  snd (fold_left (ext_step prefix) p (values, keys)) = keys ++ filter (flat_key prefix) (dkeys p).
Proof.
  induction p as [|[k v] r IH]; intros values keys; cbn [fold_left dkeys map filter]; [now rewrite app_nil_r|].
  unfold ext_step at 2; cbn [fst snd]. destruct (flat_key prefix k) eqn:F; rewrite IH; fold (dkeys r).
  - rewrite <- app_assoc; reflexivity.
  - reflexivity.
Qed.

(** The value recorded at an index by the loop. *)
Lemma ext_values prefix p : wf p -> idx_unique p prefix -> forall values keys i,
  nth i (fst (fold_left (ext_step prefix) p (values, keys))) None =
  match find (fun kv => flat_key prefix (fst kv) && Nat.eqb (flat_idx prefix (fst kv)) i)%bool p with
  | Some kv => opt_of_val (snd kv)
  | None => nth i values None
  end.
Proof.
  induction p as [|[k v] r IH]; intros Hwf Hu values keys i; cbn [fold_left find]; [reflexivity|].
  inversion Hwf as [|? ? Hn Hwf']; subst.
  assert (Hu' : idx_unique r prefix).
  { intros k1 k2 H1 H2; apply Hu; right; assumption. }
  unfold ext_step at 2; cbn [fst snd]. destruct (flat_key prefix k) eqn:F; cbn [andb]; rewrite IH by assumption.
  - destruct (Nat.eqb (flat_idx prefix k) i) eqn:E.
    + apply Nat.eqb_eq in E. destruct (find _ r) as [[k2 v2]|] eqn:G.
      * exfalso. apply find_some in G. cbn [fst] in G. destruct G as [G1 G2].
        apply andb_prop in G2. destruct G2 as [G2 G3]. apply Nat.eqb_eq in G3.
        assert (k2 = k).
        { apply Hu; [right; apply (in_map fst) in G1; exact G1 | left; reflexivity | exact G2 | exact F | congruence]. }
        subst k2. apply Hn. apply (in_map fst) in G1; exact G1.
      * rewrite nth_put_at. rewrite Nat.eqb_sym. apply Nat.eqb_eq in E. rewrite E. reflexivity.
    + destruct (find _ r) as [kv|]; [reflexivity|]. rewrite nth_put_at, Nat.eqb_sym, E. reflexivity.
  - reflexivity.
Qed.

Lemma extract_eq p prefix :
  extract_indexed_parameters p prefix =
  (compact (fst (fold_left (ext_step prefix) p ([], []))), filter (flat_key prefix) (dkeys p)).
Proof.
  unfold extract_indexed_parameters.
  change (fold_left _ p ([], [])) with (fold_left (ext_step prefix) p ([], [])).
  destruct (fold_left (ext_step prefix) p ([], [])) as [vs ks] eqn:E.
  pose proof (ext_keys prefix p [] []) as K. rewrite E in K. cbn [fst snd app] in *. now subst.
Qed.

(** The values returned are exactly the non-None values stored under flat keys,
    in increasing order of their index. *)
Lemma extract_spec p prefix vals keys : wf p -> idx_unique p prefix ->
  extract_indexed_parameters p prefix = (vals, keys) ->
  keys = filter (flat_key prefix) (dkeys p) /\
  exists L : list (nat * pyval), vals = map snd L /\ StronglySorted lt (map fst L) /\
    forall i v, In (i, v) L <->
      exists k, dget p k = Some v /\ v <> VNone /\ flat_key prefix k = true /\ flat_idx prefix k = i.
Proof.
  intros Hwf Hu H. rewrite extract_eq in H. injection H as <- <-. split; [reflexivity|].
  set (vs := fst (fold_left (ext_step prefix) p ([], []))).
  exists (enum 0 vs). split; [apply compact_enum|split; [apply enum_sorted|]].
  intros i v. rewrite In_enum, Nat.sub_0_r. subst vs. rewrite ext_values by assumption.
  split.
  - intros [_ H]. destruct (find _ p) as [[k w]|] eqn:G; [|destruct i; discriminate].
    apply find_some in G. cbn [fst snd] in *. destruct G as [G1 G2].
    apply andb_prop in G2. destruct G2 as [G2 G3]. apply Nat.eqb_eq in G3.
    exists k. assert (w = v /\ v <> VNone) as [-> Hv].
    { destruct w; simpl in H; try discriminate; injection H as <-; split; congruence. }
    repeat split; auto. apply wf_In_dget; assumption.
  - intros (k & Hk & Hv & Hf & Hi). split; [lia|].
    destruct (find _ p) as [[k2 w]|] eqn:G.
    + apply find_some in G. cbn [fst snd] in *. destruct G as [G1 G2].
      apply andb_prop in G2. destruct G2 as [G2 G3]. apply Nat.eqb_eq in G3.
      assert (k2 = k).
      { apply Hu; auto; [apply (in_map fst) in G1; exact G1 | | congruence].
        apply dget_In_keys. apply dmem_true; eauto. }
      subst k2. apply wf_In_dget in G1; [|assumption]. rewrite Hk in G1. injection G1 as <-.
      destruct v; simpl; congruence.
    + apply dget_Some_In in Hk. pose proof (find_none _ _ G _ Hk) as C. cbn [fst] in C.
      rewrite Hf, Hi, Nat.eqb_refl in C. discriminate.
Qed.

(** ** whole function *)

Lemma prefix_comparable a : forall b k, String.prefix a k = true -> String.prefix b k = true ->
  String.prefix a b = true \/ String.prefix b a = true.
Proof.
  induction a as [|x a IH]; intros b k Ha Hb; [left; destruct b; reflexivity|].
  destruct b as [|y b]; [right; reflexivity|].
  destruct k as [|z k]; [discriminate|]. simpl in *.
  destruct (Ascii.ascii_dec x z) as [->|]; [|discriminate].
  destruct (Ascii.ascii_dec y z) as [->|]; [|discriminate].
  destruct (Ascii.ascii_dec z z); [|congruence].
  eapply IH; eassumption.
Qed.

Lemma flat_key_prefix pre k : flat_key pre k = true -> String.prefix pre k = true.
Proof. unfold flat_key; intros H; apply andb_prop in H; tauto. Qed.

Lemma flat_key_excl a b k : String.prefix a b = false -> String.prefix b a = false ->
  flat_key a k = true -> flat_key b k = true -> False.
Proof.
  intros Ha Hb H1 H2. apply flat_key_prefix in H1, H2.
  destruct (prefix_comparable _ _ _ H1 H2); congruence.
Qed.

Lemma pop_all_ok ks : forall d, wf d -> NoDup ks -> (forall k, In k ks -> dmem d k = true) ->
  exists d', pop_all d ks = Ok d' /\ wf d' /\ forall k, dget d' k = if smem k ks then None else dget d k.
Proof.
  induction ks as [|k0 r IH]; simpl; intros d Hwf Hnd Hin.
  - exists d; repeat split; auto.
  - rewrite (Hin k0) by (now left). inversion Hnd as [|? ? Hni Hnd']; subst.
    destruct (IH (ddel d k0)) as (d' & H1 & H2 & H3); auto using wf_ddel.
    + intros k Hk. unfold dmem. rewrite dget_ddel by exact Hwf.
      destruct (String.eqb k0 k) eqn:E; [apply String.eqb_eq in E; subst; contradiction|].
      apply (Hin k). now right.
    + exists d'; repeat split; auto. intros k. rewrite H3, dget_ddel by exact Hwf.
      rewrite (String.eqb_sym k k0). destruct (String.eqb k0 k); simpl; [|reflexivity].
      destruct (smem k r); reflexivity.
Qed.

Lemma pop_all_err ks : forall d e, wf d -> NoDup ks -> (forall k, In k ks -> dmem d k = true) ->
  pop_all d ks = Err e -> False.
Proof.
  intros d e H1 H2 H3 H. destruct (pop_all_ok ks d H1 H2 H3) as (d' & H4 & _). congruence.
Qed.

(** Values of a family (coefficients or timescales) as the code collects them. *)
Definition fam_values (p : dict pyval) (prefix : string) : list pyval :=
  fst (extract_indexed_parameters p prefix).

(** Family active: at least one non-None value. *)
Definition fam_active (p : dict pyval) (c t : string) : bool :=
  match fam_values p c, fam_values p t with [], [] => false | _, _ => true end.

Lemma fam_values_ext p q prefix :
  filter (fun kv => flat_key prefix (fst kv)) p = filter (fun kv => flat_key prefix (fst kv)) q ->
  fam_values p prefix = fam_values q prefix.
Proof.
  intros H. unfold fam_values. rewrite !extract_eq. simpl. f_equal.
  assert (G : forall l vs ks, fst (fold_left (ext_step prefix) l (vs, ks)) =
    fst (fold_left (ext_step prefix) (filter (fun kv => flat_key prefix (fst kv)) l) (vs, ks))).
  { induction l as [|kv l IH]; intros vs ks; simpl; [reflexivity|].
    unfold ext_step at 2. destruct (flat_key prefix (fst kv)) eqn:F; simpl.
    - rewrite F. apply IH.
    - apply IH. }
  rewrite (G p), (G q), H. reflexivity.
Qed.

Lemma filter_dset_non_flat prefix (p : dict pyval) key v : flat_key prefix key = false ->
  filter (fun kv => flat_key prefix (fst kv)) (dset p key v) = filter (fun kv => flat_key prefix (fst kv)) p.
Proof.
  intros F. induction p as [|[k0 v0] r IH]; simpl; [rewrite F; reflexivity|].
  destruct (String.eqb k0 key) eqn:E; simpl.
  - apply String.eqb_eq in E; subst. rewrite F. reflexivity.
  - rewrite IH. reflexivity.
Qed.

Lemma fam_values_dset p key v prefix : flat_key prefix key = false ->
  fam_values (dset p key v) prefix = fam_values p prefix.
Proof.
  intros F. apply fam_values_ext, filter_dset_non_flat, F.
Qed.

Lemma filter_keys_dset prefix (p : dict pyval) key v : flat_key prefix key = false ->
  filter (flat_key prefix) (dkeys (dset p key v)) = filter (flat_key prefix) (dkeys p).
Proof.
  intros F. rewrite dkeys_dset. destruct (dmem p key); [reflexivity|].
  rewrite filter_app. simpl. rewrite F. apply app_nil_r.
Qed.

Lemma fam_values_none p prefix : (forall k, In k (dkeys p) -> flat_key prefix k = false) -> fam_values p prefix = [].
Proof.
  intros H. rewrite (fam_values_ext p [] prefix); [reflexivity|]. simpl.
  induction p as [|[k v] r IH]; simpl; [reflexivity|].
  rewrite (H k) by (now left). apply IH. intros k' Hk'; apply H. now right.
Qed.

Lemma extract_pair p prefix :
  extract_indexed_parameters p prefix = (fam_values p prefix, filter (flat_key prefix) (dkeys p)).
Proof. unfold fam_values. rewrite extract_eq. reflexivity. Qed.

Definition rb_keys (p : dict pyval) :=
  filter (flat_key "rb_coef") (dkeys p) ++ filter (flat_key "rb_tim") (dkeys p).
Definition rs_keys (p : dict pyval) :=
  filter (flat_key "rs_coef") (dkeys p) ++ filter (flat_key "rs_tim") (dkeys p).

Lemma process_rb_eq p :
  process_rb_parameters p =
  if fam_active p "rb_coef" "rb_tim" then
    if Nat.eqb (List.length (fam_values p "rb_coef")) (List.length (fam_values p "rb_tim"))
    then Ok (dset p "rb_function" (VFun (fam_values p "rb_coef") (fam_values p "rb_tim")), rb_keys p)
    else Err ValueError
  else Ok (p, []).
Proof.
  unfold process_rb_parameters, fam_active, rb_keys. rewrite !extract_pair.
  destruct (fam_values p "rb_coef") as [|c cs], (fam_values p "rb_tim") as [|t ts]; simpl; try reflexivity.
  destruct (Nat.eqb (List.length cs) (List.length ts)); reflexivity.
Qed.

Lemma process_rs_eq p :
  process_rs_parameters p =
  if fam_active p "rs_coef" "rs_tim" then
    if Nat.eqb (List.length (fam_values p "rs_coef")) (List.length (fam_values p "rs_tim") + 1)
    then Ok (dset p "rs_function" (VFun (fam_values p "rs_coef") (fam_values p "rs_tim")), rs_keys p)
    else Err ValueError
  else Ok (p, []).
Proof.
  unfold process_rs_parameters, fam_active, rs_keys. rewrite !extract_pair.
  destruct (fam_values p "rs_coef") as [|c cs], (fam_values p "rs_tim") as [|t ts]; try reflexivity.
  - destruct (Nat.eqb _ _); reflexivity.
  - destruct (Nat.eqb _ _); reflexivity.
Qed.

Lemma NoDup_app_intro {A} (l1 l2 : list A) : NoDup l1 -> NoDup l2 -> (forall x, In x l1 -> In x l2 -> False) ->
  NoDup (l1 ++ l2).
Proof.
  induction l1 as [|x l IH]; simpl; intros H1 H2 Hd; [exact H2|].
  inversion H1; subst. constructor.
  - rewrite in_app_iff; intros [H|H]; [contradiction | eapply Hd; eauto].
  - apply IH; eauto.
Qed.

Lemma In_rb_keys p k : In k (rb_keys p) <-> In k (dkeys p) /\ (flat_key "rb_coef" k = true \/ flat_key "rb_tim" k = true).
Proof. unfold rb_keys; rewrite in_app_iff, !filter_In; tauto. Qed.
Lemma In_rs_keys p k : In k (rs_keys p) <-> In k (dkeys p) /\ (flat_key "rs_coef" k = true \/ flat_key "rs_tim" k = true).
Proof. unfold rs_keys; rewrite in_app_iff, !filter_In; tauto. Qed.

Lemma rb_keys_nodup p : wf p -> NoDup (rb_keys p).
Proof.
  intros H; apply NoDup_app_intro; try (apply NoDup_filter, H).
  intros x H1 H2. apply filter_In in H1, H2. eapply flat_key_excl with (a := "rb_coef") (b := "rb_tim"); try reflexivity; tauto || (destruct H1, H2; eassumption).
Qed.
Lemma rs_keys_nodup p : wf p -> NoDup (rs_keys p).
Proof.
  intros H; apply NoDup_app_intro; try (apply NoDup_filter, H).
  intros x H1 H2. apply filter_In in H1, H2. eapply flat_key_excl with (a := "rs_coef") (b := "rs_tim"); try reflexivity; destruct H1, H2; eassumption.
Qed.
Lemma rb_rs_disjoint p q k : In k (rb_keys p) -> In k (rs_keys q) -> False.
Proof.
  rewrite In_rb_keys, In_rs_keys. intros [_ [H1|H1]] [_ [H2|H2]].
  - refine (flat_key_excl _ _ _ _ _ H1 H2); reflexivity.
  - refine (flat_key_excl _ _ _ _ _ H1 H2); reflexivity.
  - refine (flat_key_excl _ _ _ _ _ H1 H2); reflexivity.
  - refine (flat_key_excl _ _ _ _ _ H1 H2); reflexivity.
Qed.

(** Full characterisation of [_process_flat_carbon_parameters]. *)
Definition flat_result_at (p : dict pyval) (k : string) : option pyval :=
  let rb := fam_active p "rb_coef" "rb_tim" in
  let rs := fam_active p "rs_coef" "rs_tim" in
  if (rb && (flat_key "rb_coef" k || flat_key "rb_tim" k))%bool then None
  else if (rs && (flat_key "rs_coef" k || flat_key "rs_tim" k))%bool then None
  else if (rb && String.eqb k "rb_function")%bool
       then Some (VFun (fam_values p "rb_coef") (fam_values p "rb_tim"))
  else if (rs && String.eqb k "rs_function")%bool
       then Some (VFun (fam_values p "rs_coef") (fam_values p "rs_tim"))
  else dget p k.

Definition flat_counts_ok (p : dict pyval) : bool :=
  (negb (fam_active p "rb_coef" "rb_tim") ||
   Nat.eqb (List.length (fam_values p "rb_coef")) (List.length (fam_values p "rb_tim"))) &&
  (negb (fam_active p "rs_coef" "rs_tim") ||
   Nat.eqb (List.length (fam_values p "rs_coef")) (List.length (fam_values p "rs_tim") + 1)).

Lemma smem_rb p k : smem k (rb_keys p) = (dmem p k && (flat_key "rb_coef" k || flat_key "rb_tim" k))%bool.
Proof.
  apply Bool.eq_true_iff_eq. rewrite smem_In, In_rb_keys, Bool.andb_true_iff, Bool.orb_true_iff, dget_In_keys. tauto.
Qed.
Lemma smem_rs p k : smem k (rs_keys p) = (dmem p k && (flat_key "rs_coef" k || flat_key "rs_tim" k))%bool.
Proof.
  apply Bool.eq_true_iff_eq. rewrite smem_In, In_rs_keys, Bool.andb_true_iff, Bool.orb_true_iff, dget_In_keys. tauto.
Qed.
Lemma smem_app k l1 l2 : smem k (l1 ++ l2) = (smem k l1 || smem k l2)%bool.
Proof. unfold smem; apply existsb_app. Qed.

Lemma flat_key_rb_fun pre : In pre ["rb_coef"; "rb_tim"; "rs_coef"; "rs_tim"] ->
  flat_key pre "rb_function" = false /\ flat_key pre "rs_function" = false.
Proof. simpl; intros [<-|[<-|[<-|[<-|[]]]]]; split; reflexivity. Qed.

Lemma has_flat_none (p : dict pyval) : existsb has_flat_prefix (dkeys p) = false ->
  forall pre k, In pre ["rb_coef"; "rb_tim"; "rs_coef"; "rs_tim"] -> In k (dkeys p) -> flat_key pre k = false.
Proof.
  intros H pre k Hpre Hk.
  destruct (flat_key pre k) eqn:F; [|reflexivity]. exfalso.
  assert (T : existsb has_flat_prefix (dkeys p) = true); [|congruence].
  apply existsb_exists. exists k. split; [exact Hk|]. apply flat_key_prefix in F.
  unfold has_flat_prefix. simpl in Hpre. destruct Hpre as [<-|[<-|[<-|[<-|[]]]]]; rewrite F, ?Bool.orb_true_r; reflexivity.
Qed.

Theorem flat_spec p : wf p ->
  match process_flat_carbon_parameters p with
  | Ok p' => flat_counts_ok p = true /\ wf p' /\ forall k, dget p' k = flat_result_at p k
  | Err e => e = ValueError /\ flat_counts_ok p = false
  end.
Proof.
  intros Hwf. unfold process_flat_carbon_parameters.
  destruct (existsb has_flat_prefix (dkeys p)) eqn:HF; cbn [negb].
  2:{ pose proof (has_flat_none p HF) as HN.
      assert (V : forall pre, In pre ["rb_coef"; "rb_tim"; "rs_coef"; "rs_tim"] -> fam_values p pre = []).
      { intros pre Hpre; apply fam_values_none; intros k Hk; apply HN; assumption. }
      unfold flat_counts_ok, flat_result_at, fam_active.
      rewrite (V "rb_coef"), (V "rb_tim"), (V "rs_coef"), (V "rs_tim") by (simpl; tauto).
      simpl. auto. }
  rewrite process_rb_eq. unfold flat_counts_ok.
  destruct (fam_active p "rb_coef" "rb_tim") eqn:RB; cbn [negb orb andb].
  - destruct (Nat.eqb (List.length (fam_values p "rb_coef")) (List.length (fam_values p "rb_tim"))) eqn:LB;
      cbn [rbind andb]; [|split; [reflexivity|]; reflexivity].
    set (p1 := dset p "rb_function" (VFun (fam_values p "rb_coef") (fam_values p "rb_tim"))).
    assert (W1 : wf p1) by (apply wf_dset, Hwf).
    assert (V : forall pre, In pre ["rb_coef"; "rb_tim"; "rs_coef"; "rs_tim"] -> fam_values p1 pre = fam_values p pre).
    { intros pre Hpre; apply fam_values_dset. apply flat_key_rb_fun, Hpre. }
    assert (K : rs_keys p1 = rs_keys p).
    { unfold rs_keys, p1. rewrite !filter_keys_dset by reflexivity. reflexivity. }
    rewrite process_rs_eq. unfold fam_active at 1.
    rewrite (V "rs_coef"), (V "rs_tim") by (simpl; tauto). rewrite K.
    fold (fam_active p "rs_coef" "rs_tim").
    destruct (fam_active p "rs_coef" "rs_tim") eqn:RS; cbn [negb orb andb].
    + destruct (Nat.eqb (List.length (fam_values p "rs_coef")) (List.length (fam_values p "rs_tim") + 1)) eqn:LS;
        cbn [rbind]; [|split; reflexivity].
      set (p2 := dset p1 "rs_function" (VFun (fam_values p "rs_coef") (fam_values p "rs_tim"))).
      destruct (pop_all_ok (rb_keys p ++ rs_keys p) p2) as (d' & E & W' & G).
      * apply wf_dset, W1.
      * apply NoDup_app_intro; [apply rb_keys_nodup, Hwf | apply rs_keys_nodup, Hwf | intros x; apply rb_rs_disjoint].
      * intros k Hk. assert (In k (dkeys p)).
        { apply in_app_iff in Hk. destruct Hk as [Hk|Hk]; [apply In_rb_keys in Hk | apply In_rs_keys in Hk]; tauto. }
        apply dget_In_keys in H. unfold dmem in *. subst p2 p1. rewrite !dget_dset.
        destruct (String.eqb "rs_function" k); [reflexivity|]. destruct (String.eqb "rb_function" k); [reflexivity|exact H].
      * rewrite E. split; [reflexivity|split; [exact W'|]]. intros k. rewrite G.
        rewrite smem_app, smem_rb, smem_rs. unfold flat_result_at. rewrite RB, RS. cbn [andb].
        subst p2 p1. rewrite !dget_dset. unfold dmem. rewrite (String.eqb_sym "rs_function" k), (String.eqb_sym "rb_function" k).
        destruct (flat_key_rb_fun "rb_coef"), (flat_key_rb_fun "rb_tim"), (flat_key_rb_fun "rs_coef"), (flat_key_rb_fun "rs_tim"); try (simpl; tauto).
        destruct (String.eqb k "rs_function") eqn:E1; [apply String.eqb_eq in E1; subst k|].
        { rewrite H0, H2, H4, H6. cbn [orb andb]. rewrite !Bool.andb_false_r. reflexivity. }
        destruct (String.eqb k "rb_function") eqn:E2; [apply String.eqb_eq in E2; subst k|].
        { rewrite H, H1, H3, H5. cbn [orb andb]. rewrite !Bool.andb_false_r. reflexivity. }
        destruct (dget p k); cbn [andb orb];
        destruct (flat_key "rb_coef" k), (flat_key "rb_tim" k), (flat_key "rs_coef" k), (flat_key "rs_tim" k); reflexivity.
    + cbn [rbind].
      destruct (pop_all_ok (rb_keys p ++ []) p1) as (d' & E & W' & G).
      * exact W1.
      * rewrite app_nil_r. apply rb_keys_nodup, Hwf.
      * intros k Hk. rewrite app_nil_r in Hk. apply In_rb_keys in Hk. destruct Hk as [Hk _].
        apply dget_In_keys in Hk. unfold dmem in *. subst p1. rewrite !dget_dset.
        destruct (String.eqb "rb_function" k); [reflexivity|exact Hk].
      * rewrite E. split; [reflexivity|split; [exact W'|]]. intros k. rewrite G.
        rewrite app_nil_r, smem_rb. unfold flat_result_at. rewrite RB, RS. cbn [andb].
        subst p1. rewrite !dget_dset. unfold dmem. rewrite (String.eqb_sym "rb_function" k).
        destruct (flat_key_rb_fun "rb_coef"), (flat_key_rb_fun "rb_tim"); try (simpl; tauto).
        destruct (String.eqb k "rb_function") eqn:E2; [apply String.eqb_eq in E2; subst k|].
        { rewrite H, H1. cbn [orb andb]. rewrite !Bool.andb_false_r. reflexivity. }
        destruct (dget p k); cbn [andb orb];
        destruct (flat_key "rb_coef" k), (flat_key "rb_tim" k); reflexivity.
  - cbn [rbind]. rewrite process_rs_eq.
    destruct (fam_active p "rs_coef" "rs_tim") eqn:RS; cbn [negb orb andb].
    + destruct (Nat.eqb (List.length (fam_values p "rs_coef")) (List.length (fam_values p "rs_tim") + 1)) eqn:LS;
        cbn [rbind app]; [|split; reflexivity].
      set (p2 := dset p "rs_function" (VFun (fam_values p "rs_coef") (fam_values p "rs_tim"))).
      destruct (pop_all_ok (rs_keys p) p2) as (d' & E & W' & G).
      * apply wf_dset, Hwf.
      * apply rs_keys_nodup, Hwf.
      * intros k Hk. apply In_rs_keys in Hk. destruct Hk as [Hk _].
        apply dget_In_keys in Hk. unfold dmem in *. subst p2. rewrite !dget_dset.
        destruct (String.eqb "rs_function" k); [reflexivity|exact Hk].
      * rewrite E. split; [reflexivity|split; [exact W'|]]. intros k. rewrite G.
        rewrite smem_rs. unfold flat_result_at. rewrite RB, RS. cbn [andb].
        subst p2. rewrite !dget_dset. unfold dmem. rewrite (String.eqb_sym "rs_function" k).
        destruct (flat_key_rb_fun "rs_coef"), (flat_key_rb_fun "rs_tim"); try (simpl; tauto).
        destruct (String.eqb k "rs_function") eqn:E2; [apply String.eqb_eq in E2; subst k|].
        { rewrite H0, H2. cbn [orb andb]. rewrite !Bool.andb_false_r. reflexivity. }
        destruct (dget p k); cbn [andb orb];
        destruct (flat_key "rs_coef" k), (flat_key "rs_tim" k); reflexivity.
    + cbn [rbind app pop_all]. split; [reflexivity|split; [exact Hwf|]].
      intros k. unfold flat_result_at. rewrite RB, RS. reflexivity.
Qed.
