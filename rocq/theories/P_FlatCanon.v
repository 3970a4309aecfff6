(** * P_FlatCanon: canonical flat names give back the list form *)
From Coq Require Import Decimal DecimalString DecimalNat.
From Verif Require Import PyBase PyBaseFacts M_Flat Spec_Pams P_Flat.

Lemma parse_uint d : forall acc,
  parse_nat_acc acc (NilEmpty.string_of_uint d) = Nat.of_uint_acc d acc.
Proof.
  induction d; intros acc; [reflexivity|..]; cbn [NilEmpty.string_of_uint Nat.of_uint_acc];
    rewrite Nat.tail_mul_spec; rewrite <- IHd;
    match goal with |- parse_nat_acc acc (String ?c ?r) = parse_nat_acc ?m _ =>
      let dd := eval vm_compute in (digit_val c) in
      change (match dd with Some d0 => parse_nat_acc (10 * acc + d0) r | None => acc end =
              parse_nat_acc m r) end; cbv beta iota; f_equal; simpl; lia.
Qed.

Lemma digits_uint d : all_digits (NilEmpty.string_of_uint d) = true.
Proof. induction d; simpl; auto. Qed.

Lemma to_uint_nonnil n : Nat.to_uint n <> Nil.
Proof.
  intros H. assert (n = 0) by (rewrite <- (Unsigned.of_to n), H; reflexivity). subst; discriminate.
Qed.

Lemma sdrop_app pre s : sdrop (String.length pre) (pre ++ s)%string = s.
Proof.
  unfold sdrop. assert (L : String.length (pre ++ s)%string - String.length pre = String.length s).
  { induction pre; simpl; lia. }
  rewrite L. induction pre as [|c pre IH]; simpl.
  - clear L. induction s; simpl; congruence.
  - apply IH. simpl in L. lia.
Qed.

Lemma prefix_app pre s : String.prefix pre (pre ++ s)%string = true.
Proof. induction pre as [|c pre IH]; simpl; [destruct s; reflexivity|]. destruct (Ascii.ascii_dec c c); congruence. Qed.

Lemma flat_key_name pre i : flat_key pre (flat_name pre i) = true.
Proof.
  unfold flat_key, flat_name. rewrite prefix_app, sdrop_app. cbn [andb].
  unfold isdigit. pose proof (digits_uint (Nat.to_uint i)) as D.
  pose proof (to_uint_nonnil i) as N. destruct (Nat.to_uint i); try congruence; simpl in *; exact D.
Qed.

Lemma flat_idx_name pre i : flat_idx pre (flat_name pre i) = i.
Proof.
  unfold flat_idx, flat_name. rewrite sdrop_app. unfold parse_nat. rewrite parse_uint.
  exact (Unsigned.of_to i).
Qed.

Lemma compact_nth (l : list pyval) : forall vals, (forall i, nth i vals None = nth_error l i) -> compact vals = l.
Proof.
  induction l as [|x l IH]; intros vals H.
  - assert (N : forall i, nth i vals None = None) by (intros i; rewrite H; destruct i; reflexivity). clear H.
    induction vals as [|v vals IHv]; [reflexivity|]. pose proof (N 0) as N0; simpl in N0; subst v. simpl.
    apply IHv. intros i; apply (N (S i)).
  - pose proof (H 0) as H0. destruct vals as [|v vals]; simpl in H0; [discriminate|]. subst v. simpl. f_equal.
    apply IH. intros i. apply (H (S i)).
Qed.

Lemma family_keys p pre l k : flat_family p pre l -> In k (dkeys p) ->
  flat_key pre k = String.prefix pre k.
Proof.
  intros (H1 & H2 & H3) Hk. destruct (String.prefix pre k) eqn:E.
  - destruct (H2 k Hk E) as [i ->]. apply flat_key_name.
  - unfold flat_key. rewrite E. reflexivity.
Qed.

Lemma family_unique p pre l : flat_family p pre l -> idx_unique p pre.
Proof.
  intros (H1 & H2 & H3) k1 k2 K1 K2 F1 F2 E.
  apply flat_key_prefix in F1, F2.
  destruct (H2 k1 K1 F1) as [i ->], (H2 k2 K2 F2) as [j ->]. rewrite !flat_idx_name in E. congruence.
Qed.

Lemma family_values p pre l : wf p -> flat_family p pre l -> fam_values p pre = l.
Proof.
  intros Hwf HF. pose proof (family_unique _ _ _ HF) as HU. destruct HF as (H1 & H2 & H3).
  unfold fam_values. rewrite extract_eq. cbn [fst]. apply compact_nth. intros i.
  rewrite ext_values by assumption.
  destruct (find _ p) as [[k w]|] eqn:G.
  - apply find_some in G. cbn [fst snd] in *. destruct G as [G1 G2].
    apply andb_prop in G2. destruct G2 as [G2 G3]. apply Nat.eqb_eq in G3.
    apply flat_key_prefix in G2. pose proof (in_map fst _ _ G1) as Hk. cbn [fst] in Hk.
    destruct (H2 k Hk G2) as [j ->]. rewrite flat_idx_name in G3. subst j.
    apply wf_In_dget in G1; [|exact Hwf]. rewrite H1 in G1. rewrite G1.
    apply nth_error_In in G1. destruct w; try reflexivity. contradiction.
  - rewrite <- H1. destruct i; cbn [nth]; destruct (dget p _) as [v|] eqn:D; auto;
    apply dget_Some_In in D; pose proof (find_none _ _ G _ D) as C; cbn [fst] in C;
    rewrite flat_key_name, flat_idx_name, Nat.eqb_refl in C; discriminate.
Qed.

Lemma family_active p c t lc lt : wf p -> flat_family p c lc -> flat_family p t lt ->
  fam_active p c t = negb (Nat.eqb (List.length lc) 0 && Nat.eqb (List.length lt) 0).
Proof.
  intros Hwf H1 H2. unfold fam_active. rewrite (family_values _ _ _ Hwf H1), (family_values _ _ _ Hwf H2).
  destruct lc, lt; reflexivity.
Qed.

Lemma not_in_lookup (p : dict pyval) k : ~ In k (dkeys p) -> dget p k = None.
Proof.
  intros H. destruct (dget p k) as [v|] eqn:E; [|reflexivity]. exfalso. apply H.
  apply dget_In_keys. unfold dmem. rewrite E; reflexivity.
Qed.

Lemma prefix_excl a b k : String.prefix a b = false -> String.prefix b a = false ->
  String.prefix a k = true -> String.prefix b k = false.
Proof.
  intros Ha Hb H1. destruct (String.prefix b k) eqn:H2; [|reflexivity].
  destruct (prefix_comparable _ _ _ H1 H2); congruence.
Qed.

Lemma c33_canonical p rbc rbt rsc rst : wf p ->
  flat_family p "rb_coef" rbc -> flat_family p "rb_tim" rbt ->
  flat_family p "rs_coef" rsc -> flat_family p "rs_tim" rst ->
  if spec_flat_counts rbc rbt rsc rst
  then exists p', process_flat_carbon_parameters p = Ok p' /\
       forall k, dget p' k = spec_flat_lookup p rbc rbt rsc rst k
  else process_flat_carbon_parameters p = Err ValueError.
Proof.
  intros Hwf F1 F2 F3 F4. pose proof (flat_spec p Hwf) as S.
  assert (C : flat_counts_ok p = spec_flat_counts rbc rbt rsc rst).
  { unfold flat_counts_ok, spec_flat_counts.
    rewrite (family_active _ _ _ _ _ Hwf F1 F2), (family_active _ _ _ _ _ Hwf F3 F4).
    rewrite (family_values _ _ _ Hwf F1), (family_values _ _ _ Hwf F2), (family_values _ _ _ Hwf F3), (family_values _ _ _ Hwf F4).
    rewrite !negb_involutive. f_equal. destruct rbc, rbt; reflexivity. }
  destruct (process_flat_carbon_parameters p) as [p'|e].
  - destruct S as (S1 & S2 & S3). rewrite C in S1. rewrite S1. exists p'; split; [reflexivity|].
    intros k. rewrite S3. unfold flat_result_at, spec_flat_lookup.
    rewrite (family_active _ _ _ _ _ Hwf F1 F2), (family_active _ _ _ _ _ Hwf F3 F4).
    rewrite (family_values _ _ _ Hwf F1), (family_values _ _ _ Hwf F2), (family_values _ _ _ Hwf F3), (family_values _ _ _ Hwf F4).
    assert (LB : List.length rbc = List.length rbt /\ ((List.length rsc = 0 /\ List.length rst = 0) \/ List.length rsc = List.length rst + 1)).
    { unfold spec_flat_counts in S1. apply andb_prop in S1. destruct S1 as [A B]. apply Nat.eqb_eq in A.
      apply orb_prop in B. destruct B as [B|B]; [apply andb_prop in B; destruct B as [B1 B2]; apply Nat.eqb_eq in B1, B2; auto
        | apply Nat.eqb_eq in B; auto]. }
    destruct LB as [LB LS].
    destruct (in_dec string_dec k (dkeys p)) as [Hk|Hk].
    + rewrite (family_keys _ _ _ _ F1 Hk), (family_keys _ _ _ _ F2 Hk), (family_keys _ _ _ _ F3 Hk), (family_keys _ _ _ _ F4 Hk).
      assert (E1 : String.prefix "rb_coef" k = true -> rbc <> []).
      { intros P ->. destruct (proj1 (proj2 F1) k Hk P) as [i ->]. apply dget_In_keys in Hk. unfold dmem in Hk.
        rewrite (proj1 F1) in Hk. destruct i; discriminate. }
      assert (E2 : String.prefix "rb_tim" k = true -> rbt <> []).
      { intros P ->. destruct (proj1 (proj2 F2) k Hk P) as [i ->]. apply dget_In_keys in Hk. unfold dmem in Hk.
        rewrite (proj1 F2) in Hk. destruct i; discriminate. }
      assert (E3 : String.prefix "rs_coef" k = true -> rsc <> []).
      { intros P ->. destruct (proj1 (proj2 F3) k Hk P) as [i ->]. apply dget_In_keys in Hk. unfold dmem in Hk.
        rewrite (proj1 F3) in Hk. destruct i; discriminate. }
      assert (E4 : String.prefix "rs_tim" k = true -> rst <> []).
      { intros P ->. destruct (proj1 (proj2 F4) k Hk P) as [i ->]. apply dget_In_keys in Hk. unfold dmem in Hk.
        rewrite (proj1 F4) in Hk. destruct i; discriminate. }
      assert (Z : forall {T} (l : list T), l <> [] -> Nat.eqb (List.length l) 0 = false) by (intros T [|]; [congruence|reflexivity]).
      destruct (String.prefix "rb_coef" k) eqn:P1.
      { rewrite (Z _ rbc (E1 eq_refl)). reflexivity. }
      destruct (String.prefix "rb_tim" k) eqn:P2.
      { rewrite LB, (Z _ rbt (E2 eq_refl)). reflexivity. }
      cbn [orb andb]. rewrite Bool.andb_false_r.
      destruct (String.prefix "rs_coef" k) eqn:P3.
      { rewrite (Z _ rsc (E3 eq_refl)). reflexivity. }
      destruct (String.prefix "rs_tim" k) eqn:P4.
      { rewrite (Z _ rst (E4 eq_refl)), Bool.andb_false_r. reflexivity. }
      cbn [orb]. rewrite Bool.andb_false_r. rewrite <- LB.
      rewrite (Bool.andb_comm (String.eqb k "rb_function")), (Bool.andb_comm (String.eqb k "rs_function")).
      assert (R : negb ((Nat.eqb (List.length rbc) 0) && (Nat.eqb (List.length rbc) 0)) = negb (Nat.eqb (List.length rbc) 0)) by (destruct (Nat.eqb (List.length rbc) 0); reflexivity).
      rewrite R.
      assert (R2 : negb ((Nat.eqb (List.length rsc) 0) && (Nat.eqb (List.length rst) 0)) = negb (Nat.eqb (List.length rsc) 0)).
      { destruct LS as [[-> ->]| ->]; [reflexivity|]. rewrite Nat.add_1_r. reflexivity. }
      rewrite R2. reflexivity.
    + assert (D : dget p k = None) by (apply not_in_lookup, Hk). rewrite D.
      assert (R : negb ((Nat.eqb (List.length rbc) 0) && (Nat.eqb (List.length rbt) 0)) = negb (Nat.eqb (List.length rbc) 0)) by (rewrite <- LB; destruct (Nat.eqb (List.length rbc) 0); reflexivity).
      rewrite R.
      assert (R2 : negb ((Nat.eqb (List.length rsc) 0) && (Nat.eqb (List.length rst) 0)) = negb (Nat.eqb (List.length rsc) 0)).
      { destruct LS as [[-> ->]| ->]; [reflexivity|]. rewrite Nat.add_1_r. reflexivity. }
      rewrite R2.
      destruct (String.eqb k "rb_function") eqn:K1; [apply String.eqb_eq in K1; subst k|].
      { simpl. rewrite !Bool.andb_false_r. destruct (Nat.eqb (List.length rbc) 0); reflexivity. }
      destruct (String.eqb k "rs_function") eqn:K2; [apply String.eqb_eq in K2; subst k|].
      { simpl. rewrite !Bool.andb_false_r. destruct (Nat.eqb (List.length rsc) 0); reflexivity. }
      rewrite !Bool.andb_false_r. cbn [andb].
      destruct (_ && (_ || _))%bool; [destruct (_ || _)%bool; reflexivity|].
      destruct (_ && (_ || _))%bool; destruct (_ || _)%bool; reflexivity.
  - destruct S as [-> S]. rewrite C in S. rewrite S. reflexivity.
Qed.
