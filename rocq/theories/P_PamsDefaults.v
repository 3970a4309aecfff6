(** * P_PamsDefaults: default carbon parameters and the form of flat names *)
From Coq Require Import Ascii Lia.
From Verif Require Import PyBase PyBaseFacts M_Utils M_Flat M_Pams Spec_Pams P_Pams P_Flat P_CarbonPams P_PamsMain P_FlatCanon.

Lemma carbon_names k : In k (dkeys carbon_required) <-> In k (map fst carbon_defaults).
Proof. cbn. tauto. Qed.

Lemma carbon_defaults_init e : wf e -> exists c, carbon_init e None = Ok c /\
  (forall k v, In (k, v) carbon_defaults -> dget (c_pam c) k = Some v) /\
  c_x0 c = Some (flt 278 1) /\ c_rs c = None /\ c_rb c = None.
Proof.
  intros He. unfold carbon_init. cbn [rbind]. unfold carbon_cycle_init_pamsets.
  replace (take_out_missing carbon_required) with (Ok carbon_required) by (vm_compute; reflexivity). cbn [rbind].
  set (w := cut_and_check_pamset window_required e []). set (yt := years_tot_of w).
  assert (WR : wf carbon_required) by (unfold wf; cbn; repeat constructor; cbn; intuition discriminate).
  assert (WW : wf window_required) by (unfold wf; cbn; repeat constructor; cbn; intuition discriminate).
  assert (WK : forall k, In k (dkeys w) -> In k ["idtm"; "nystart"; "nyend"]).
  { intros k Hk. apply (c01_keys window_required e [] k WW He) in Hk. cbn in *. tauto. }
  clearbody w yt.
  assert (G : forall k, dget (dset (dupdate w carbon_required) "years_tot" yt) k =
     if String.eqb "years_tot" k then Some yt else match dget carbon_required k with Some v => Some v | None => dget w k end).
  { intros k. rewrite dget_dset. destruct (String.eqb "years_tot" k); auto. apply dget_dupdate; auto. }
  set (d := dset (dupdate w carbon_required) "years_tot" yt) in *. clearbody d.
  unfold carbon_reset. cbn [c_pam c_rs c_rb].
  replace (process_flat_carbon_parameters carbon_required) with (Ok carbon_required) by (vm_compute; reflexivity). cbn [rbind].
  assert (N1 : dget w "rs_function" = None) by (apply dget_None_keys; intros C; apply WK in C; cbn in C; intuition discriminate).
  assert (N2 : dget w "rb_function" = None) by (apply dget_None_keys; intros C; apply WK in C; cbn in C; intuition discriminate).
  eexists. split; [reflexivity|]. cbn [c_pam c_x0 c_rs c_rb].
  set (u := update_pam_if_numeric d (Some carbon_required) (dkeys carbon_required)).
  assert (U : forall k, dget u k = spec_updated d carbon_required (dkeys carbon_required) k) by (intros; apply upd_get; auto).
  clearbody u. change (fold_left _ ["rs_function"; "rb_function"] u) with u.
  split; [|split; [|split]].
  - intros k v Hk. rewrite U. unfold spec_updated. rewrite G.
    cbn [carbon_defaults In] in Hk.
    repeat (destruct Hk as [Hk|Hk]; [inversion Hk; subst; vm_compute; reflexivity|]). destruct Hk.
  - rewrite G. reflexivity.
  - rewrite U. unfold spec_updated. rewrite G. cbn [carbon_required]. change (dget carbon_required "rs_function") with (@None pyval).
    cbn [String.eqb Ascii.eqb Bool.eqb andb]. rewrite N1. reflexivity.
  - rewrite U. unfold spec_updated. rewrite G. change (dget carbon_required "rb_function") with (@None pyval).
    cbn [String.eqb Ascii.eqb Bool.eqb andb]. rewrite N2. reflexivity.
Qed.

Lemma digit_val_spec c : (exists d, digit_val c = Some d) <-> (48 <= nat_of_ascii c <= 57)%nat.
Proof.
  unfold digit_val. destruct (Nat.leb_spec 48 (nat_of_ascii c)), (Nat.leb_spec (nat_of_ascii c) 57); cbn [andb]; split;
    try (intros [? C]; discriminate C); try lia; eauto.
Qed.
Lemma all_digits_spec s : all_digits s = true <-> forall n c, String.get n s = Some c -> (48 <= nat_of_ascii c <= 57)%nat.
Proof.
  induction s as [|a s IH]; cbn [all_digits].
  - split; auto. intros _ n c. destruct n; discriminate.
  - destruct (digit_val a) as [dv|] eqn:E.
    + rewrite IH. split.
      * intros H [|n] c; cbn; [|apply H]. intros X; inversion X; subst. apply digit_val_spec. eauto.
      * intros H n c. apply (H (S n) c).
    + split; [discriminate|]. intros H. assert (X : exists d, digit_val a = Some d) by (apply digit_val_spec, (H 0%nat); reflexivity).
      destruct X; congruence.
Qed.
Lemma isdigit_spec s : isdigit s = true <-> decimal s.
Proof.
  unfold decimal. rewrite <- all_digits_spec. destruct s; cbn [isdigit].
  - split; [discriminate|intros [C _]; congruence].
  - split; [intros; split; auto; discriminate|intros [_ H]; exact H].
Qed.
Lemma prefix_split p : forall k, String.prefix p k = true -> exists s, k = (p ++ s)%string.
Proof.
  induction p as [|a p IH]; intros k; cbn.
  - intros _. exists k. reflexivity.
  - destruct k as [|b k]; [discriminate|]. intros H. cbn in H. destruct (ascii_dec a b) as [->|]; [|discriminate].
    destruct (IH k H) as [s ->]. exists s. reflexivity.
Qed.
Lemma flat_key_spec p k : flat_key p k = true <-> exists s, k = (p ++ s)%string /\ decimal s.
Proof.
  unfold flat_key. rewrite andb_true_iff. split.
  - intros [H1 H2]. destruct (prefix_split _ _ H1) as [s ->]. rewrite sdrop_app in H2. exists s. split; auto. apply isdigit_spec. exact H2.
  - intros [s [-> H]]. rewrite prefix_app, sdrop_app. split; auto. apply isdigit_spec. exact H.
Qed.
