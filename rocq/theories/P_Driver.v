(** * P_Driver: facts about the result arrays and the yearly loop *)
From Verif Require Import PyBase PyBaseFacts Num M_Gas M_TwoLayer M_UDM M_Forcing M_Driver Spec_Driver P_Forc.

Section Facts.
Context {A : Type} {N : Num A}.
Local Open Scope num_scope.

Lemma rbind_ok {B C} (x : result B) (k : B -> result C) z : rbind x k = Ok z -> exists y, x = Ok y /\ k y = Ok z.
Proof. destruct x; cbn; [eauto | discriminate]. Qed.
Lemma iloc_ok {B} (l : list B) i x : iloc l i = Ok x <-> nth_error l i = Some x.
Proof. unfold iloc. destruct (nth_error l i); split; intros E; congruence. Qed.
Lemma key_ok {B} k (o : option B) x : key k o = Ok x <-> o = Some x.
Proof. unfold key. destruct o; split; intros E; congruence. Qed.

Lemma yget_combine (ix : list Z) (vs : list A) y v : yget (combine ix vs) y = Some v <->
  exists n, nth_error ix n = Some y /\ (forall m, (m < n)%nat -> nth_error ix m <> Some y) /\ nth_error vs n = Some v.
Proof.
  revert vs. induction ix as [|z ix IH]; intros vs; cbn.
  - split; [discriminate | intros (n & E & _); destruct n; discriminate].
  - destruct vs as [|w vs]; cbn.
    + split; [discriminate | intros (n & _ & _ & E); destruct n; discriminate].
    + destruct (Z.eqb_spec z y) as [->|NE].
      * split.
        { intros E. exists 0%nat. split; [reflexivity|]. split; [intros m M; lia | exact E]. }
        { intros (n & E1 & E2 & E3). destruct n; [exact E3|]. exfalso. apply (E2 0%nat); [lia|reflexivity]. }
      * rewrite IH. split.
        { intros (n & E1 & E2 & E3). exists (S n). split; [exact E1|]. split; [|exact E3].
          intros [|m] M; cbn; [congruence | apply E2; lia]. }
        { intros (n & E1 & E2 & E3). destruct n; [cbn in E1; congruence|]. exists n. split; [exact E1|].
          split; [|exact E3]. intros m M. apply (E2 (S m)). lia. }
Qed.
Lemma fr_get_ok (f : frame A) col y v : fr_get f col y = Ok v <-> labelled f col y v.
Proof.
  unfold fr_get, fr_col, labelled. split.
  - intros E. apply rbind_ok in E as (vs & E1 & E2). apply key_ok in E1. apply key_ok in E2.
    apply yget_combine in E2 as (n & E2). exists vs, n. tauto.
  - intros (vs & n & E1 & E2). rewrite E1. cbn [key rbind]. apply key_ok. apply yget_combine. exists n. tauto.
Qed.
Lemma labelled_fun (f : frame A) col y v w : labelled f col y v -> labelled f col y w -> v = w.
Proof. intros X Y. apply fr_get_ok in X. apply fr_get_ok in Y. congruence. Qed.

Lemma rf_row_ok (rf : rf_data A) y n fn fs f w : rf_row rf y n = Ok (fn, fs, f, w) <-> given_forcing rf y n fn fs f w.
Proof.
  destruct rf as [l|fr]; cbn [rf_row given_forcing].
  - split.
    + intros E. apply rbind_ok in E as (x & E1 & E2). apply iloc_ok in E1. injection E2 as <- <- <- <-. tauto.
    + intros (E & -> & -> & ->). apply iloc_ok in E. rewrite E. reflexivity.
  - split.
    + intros E. apply rbind_ok in E as (x & E1 & E). apply rbind_ok in E as (y1 & E2 & E).
      apply rbind_ok in E as (z & E3 & E). apply rbind_ok in E as (u & E4 & E). injection E as <- <- <- <-.
      apply fr_get_ok in E1. apply fr_get_ok in E2. apply fr_get_ok in E3. do 3 (split; [assumption|]).
      unfold dmem in E4. destruct (dget (fr_cols fr) "w_aero") as [wv|] eqn:D; [now apply fr_get_ok in E4 | congruence].
    + intros (E1 & E2 & E3 & E4). apply fr_get_ok in E1. apply fr_get_ok in E2. apply fr_get_ok in E3.
      rewrite E1, E2, E3. cbn [rbind]. unfold dmem.
      destruct (dget (fr_cols fr) "w_aero") as [wv|] eqn:D; [apply fr_get_ok in E4; rewrite E4 | rewrite E4]; reflexivity.
Qed.

(** ** lists *)
Lemma NoDup_app_l {B} (a b : list B) : NoDup (a ++ b) -> NoDup a.
Proof.
  induction a as [|x a IH]; intros D; [constructor|]. cbn in D. inversion D as [|y ys NI D']; subst. constructor.
  - intros I. apply NI. apply in_or_app. now left.
  - now apply IH.
Qed.
Lemma set_nth_app {B} (l : list B) x v r : set_nth (List.length l) v (l ++ x :: r) = l ++ v :: r.
Proof. induction l as [|a l IH]; cbn; [reflexivity | now rewrite IH]. Qed.

(** ** arrays *)
Lemma put_ok k i v (r r' : results A) : put k i v r = Ok r' <->
  exists l, dget r k = Some (Arr l) /\ (i < List.length l)%nat /\ r' = dset r k (Arr (set_nth i v l)).
Proof.
  unfold put. destruct (dget r k) as [[l|f]|] eqn:D.
  - destruct (Nat.ltb_spec i (List.length l)).
    + split; [intros [= <-]; eauto | intros (l' & [= <-] & _ & ->); reflexivity].
    + split; [discriminate | intros (l' & [= <-] & L & _); lia].
  - split; [discriminate | intros (l & E & _); discriminate].
  - split; [discriminate | intros (l & E & _); discriminate].
Qed.

Section Loop.
Context {T : Type} (th : thermal A T) (c : inst A).
Let names := t_names th.
Hypothesis DO : distinct_outputs names.

(** setting a list of cells one after another *)
Fixpoint puts (i : nat) (kvs : list (string * A)) (r : results A) {struct kvs} : result (results A) :=
  match kvs with [] => Ok r | (k, v) :: rest => rbind (put k i v r) (puts i rest) end.
Lemma puts_app i a b r : puts i (a ++ b) r = rbind (puts i a r) (puts i b).
Proof.
  revert r. induction a as [|[k v] a IH]; intros r; cbn; [reflexivity|].
  destruct (put k i v r); cbn; [apply IH | reflexivity].
Qed.
Lemma puts_ok i kvs r r' : NoDup (map fst kvs) -> puts i kvs r = Ok r' ->
  (forall k v, In (k, v) kvs -> exists l, dget r k = Some (Arr l) /\ (i < List.length l)%nat /\ dget r' k = Some (Arr (set_nth i v l))) /\
  (forall k, ~ In k (map fst kvs) -> dget r' k = dget r k).
Proof.
  revert r. induction kvs as [|[k v] rest IH]; intros r ND E; cbn in E.
  - injection E as <-. split; [intros k v [] | reflexivity].
  - apply rbind_ok in E as (r1 & E1 & E2). apply put_ok in E1 as (l & L1 & L2 & ->).
    cbn in ND. inversion ND as [|x xs NI ND']; subst. destruct (IH _ ND' E2) as [I1 I2]. split.
    + intros k0 v0 [[= <- <-]|I0].
      * exists l. split; [assumption|]. split; [assumption|]. rewrite I2 by assumption. apply dget_dset_eq.
      * assert (k <> k0) by (intros <-; apply NI; now apply (in_map fst) in I0).
        destruct (I1 _ _ I0) as (l0 & A1 & A2 & A3). exists l0. rewrite dget_dset_neq in A1 by assumption. tauto.
    + intros k0 NI0. cbn in NI0. rewrite I2 by tauto. apply dget_dset_neq. tauto.
Qed.
Lemma puts_total i kvs r : NoDup (map fst kvs) ->
  (forall k v, In (k, v) kvs -> exists l, dget r k = Some (Arr l) /\ (i < List.length l)%nat) -> exists r', puts i kvs r = Ok r'.
Proof.
  revert r. induction kvs as [|[k v] rest IH]; intros r ND X; cbn.
  - eauto.
  - cbn in ND. inversion ND as [|x xs NI ND']; subst.
    destruct (X k v (or_introl eq_refl)) as (l & L1 & L2).
    assert (put k i v r = Ok (dset r k (Arr (set_nth i v l)))) as -> by (apply put_ok; eauto).
    cbn [rbind]. apply IH; [assumption|]. intros k0 v0 I0.
    assert (k <> k0) by (intros <-; apply NI; now apply (in_map fst) in I0).
    rewrite dget_dset_neq by assumption. apply (X k0 v0). now right.
Qed.

Definition thermal_cells (v : dict A) (ns : dict string) (kvs : list (string * A)) : Prop :=
  Forall2 (fun kn kv => fst kn = fst kv /\ dget v (snd kn) = Some (snd kv)) ns kvs.
Lemma put_outputs_ok v i r r' : put_outputs T th v i r = Ok r' <->
  exists kvs, thermal_cells v names kvs /\ puts i kvs r = Ok r'.
Proof.
  unfold put_outputs. fold names. clear DO. revert r. induction names as [|[k n] ns IH]; intros r; cbn.
  - split; [intros [= <-]; exists []; split; [constructor | reflexivity] | intros (kvs & F & E); inversion F; subst; exact E].
  - assert (forall e, fold_left (fun acc kv => do r0 <- acc; do v0 <- key (snd kv) (dget v (snd kv)); put (fst kv) i v0 r0) ns (Err e) = Err e) as FE.
    { clear IH. induction ns as [|a ns IHn]; intros e; cbn; [reflexivity | apply IHn]. }
    split.
    + intros E. destruct (dget v n) as [x|] eqn:D; cbn [key rbind] in E; [|rewrite FE in E; discriminate].
      destruct (put k i x r) as [r1|e] eqn:P; [|rewrite FE in E; discriminate].
      apply IH in E as (kvs & F & E). exists ((k, x) :: kvs). split.
      { constructor; [split; [reflexivity | exact D] | exact F]. }
      cbn. rewrite P. exact E.
    + intros (kvs & F & E). inversion F as [|a [k' x] l l' [P1 P2] F' X1 X2]; subst. cbn [fst snd] in P1, P2. subst k'.
      cbn in E. apply rbind_ok in E as (r1 & E1 & E2). rewrite P2. cbn [key rbind]. rewrite E1. apply IH. eauto.
Qed.
Lemma thermal_cells_keys v ns kvs : thermal_cells v ns kvs -> map fst kvs = dkeys ns.
Proof. induction 1 as [|[k n] [k' x] ns kvs [E _] F IH]; cbn; [reflexivity|]. cbn in E. now rewrite IH, E. Qed.

(** the cells of one year *)
Definition forc_cells (f s vn vs : A) : list (string * A) :=
  [("Total_forcing", f); ("Solar_forcing", s); ("Volcanic_forcing_NH", vn); ("Volcanic_forcing_SH", vs)].
Lemma add_year_ok v f i r r' : add_year T th c v f i r = Ok r' <->
  exists kvs s vn vs, thermal_cells v names kvs /\ nth_error (d_sun c) i = Some s /\ nth_error (d_vn c) i = Some vn /\
    nth_error (d_vs c) i = Some vs /\ puts i (kvs ++ forc_cells f s (nmean vn) (nmean vs)) r = Ok r'.
Proof.
  unfold add_year. split.
  - intros E. apply rbind_ok in E as (r1 & E1 & E). apply put_outputs_ok in E1 as (kvs & K1 & K2).
    apply rbind_ok in E as (r2 & E2 & E). apply rbind_ok in E as (s & E3 & E). apply rbind_ok in E as (r3 & E4 & E).
    apply rbind_ok in E as (vn & E5 & E). apply rbind_ok in E as (r4 & E6 & E). apply rbind_ok in E as (vs & E7 & E).
    apply iloc_ok in E3. apply iloc_ok in E5. apply iloc_ok in E7.
    exists kvs, s, vn, vs. do 4 (split; [assumption|]). rewrite puts_app, K2. cbn. rewrite E2. cbn. rewrite E4. cbn.
    rewrite E6. cbn. rewrite E. reflexivity.
  - intros (kvs & s & vn & vs & K1 & S1 & S2 & S3 & E). rewrite puts_app in E. apply rbind_ok in E as (r1 & E1 & E).
    assert (put_outputs T th v i r = Ok r1) as -> by (apply put_outputs_ok; eauto). cbn [rbind].
    cbn [forc_cells puts] in E. apply rbind_ok in E as (r2 & E2 & E). apply rbind_ok in E as (r3 & E3 & E).
    apply rbind_ok in E as (r4 & E4 & E). apply rbind_ok in E as (r5 & E5 & [= <-]).
    rewrite E2. cbn [rbind]. apply iloc_ok in S1. apply iloc_ok in S2. apply iloc_ok in S3. rewrite S1. cbn [rbind]. rewrite E3. cbn [rbind].
    rewrite S2. cbn [rbind]. rewrite E4. cbn [rbind]. rewrite S3. cbn [rbind]. exact E5.
Qed.

Lemma names_wf : wf names.
Proof. unfold distinct_outputs, output_names in DO. now apply NoDup_app_l in DO. Qed.
Lemma forc_name_none o : In o FORC_OUTPUT_LIST -> dget names o = None.
Proof.
  intros I. apply dget_None_keys. intros K. unfold distinct_outputs, output_names in DO.
  clear - DO I K. revert DO K. generalize (dkeys names) as ks. induction ks as [|k ks IH]; intros D K; [destruct K|].
  cbn in D. inversion D as [|x xs NI D']; subst. destruct K as [->|K]; [|now apply IH].
  apply NI. apply in_or_app. right. exact I.
Qed.
Lemma cell_of_puts v f i kvs s vn vs o x : thermal_cells v names kvs -> nth_error (d_sun c) i = Some s ->
  nth_error (d_vn c) i = Some vn -> nth_error (d_vs c) i = Some vs ->
  In (o, x) (kvs ++ forc_cells f s (nmean vn) (nmean vs)) -> cell names c o i v f = Some x.
Proof.
  intros K S1 S2 S3 I. apply in_app_or in I as [I|I].
  - assert (exists n, In (o, n) names /\ dget v n = Some x) as (n & I1 & I2).
    { clear - K I. unfold names in K. induction K as [|[k n] [k' y] ns kvs [E1 E2] F IH]; [destruct I|].
      cbn [fst snd] in E1, E2. destruct I as [[= -> ->]|I]; [exists n; subst; split; [now left | assumption]|].
      destruct (IH I) as (m & M1 & M2). exists m. split; [now right | assumption]. }
    unfold cell. rewrite (wf_In_dget _ _ _ names_wf I1). exact I2.
  - unfold cell. rewrite forc_name_none.
    + cbn in I. destruct I as [[= <- <-]|[[= <- <-]|[[= <- <-]|[[= <- <-]|[]]]]]; cbn.
      * reflexivity.
      * exact S1.
      * rewrite S2. reflexivity.
      * rewrite S3. reflexivity.
    + cbn in I. unfold FORC_OUTPUT_LIST. cbn. destruct I as [[= <- <-]|[[= <- <-]|[[= <- <-]|[[= <- <-]|[]]]]]; tauto.
Qed.
Lemma cells_keys v f kvs s vn vs : thermal_cells v names kvs ->
  map fst (kvs ++ forc_cells f s (nmean vn) (nmean vs)) = output_names names.
Proof. intros K. rewrite map_app, (thermal_cells_keys _ _ _ K). reflexivity. Qed.

(** one year of results *)
Lemma add_year_cells v f i r r' : add_year T th c v f i r = Ok r' ->
  (forall o, In o (output_names names) -> exists l x, dget r o = Some (Arr l) /\ (i < List.length l)%nat /\
     cell names c o i v f = Some x /\ dget r' o = Some (Arr (set_nth i x l))) /\
  (forall o, ~ In o (output_names names) -> dget r' o = dget r o).
Proof.
  intros E. apply add_year_ok in E as (kvs & s & vn & vs & K1 & S1 & S2 & S3 & E).
  pose proof (cells_keys v f kvs s vn vs K1) as CK.
  apply puts_ok in E as [P1 P2]; [|rewrite CK; exact DO]. split.
  - intros o I. rewrite <- CK in I. apply in_map_iff in I as ([o' x] & <- & I). cbn [fst].
    destruct (P1 _ _ I) as (l & L1 & L2 & L3). exists l, x. do 2 (split; [assumption|]). split; [|assumption].
    eapply cell_of_puts; eassumption.
  - intros o NI. apply P2. now rewrite CK.
Qed.
Lemma add_year_total v f i r : (forall o, In o (output_names names) -> exists l, dget r o = Some (Arr l) /\ (i < List.length l)%nat) ->
  (forall o, In o (output_names names) -> cell names c o i v f <> None) -> exists r', add_year T th c v f i r = Ok r'.
Proof.
  intros X Y.
  assert (exists kvs, thermal_cells v names kvs) as (kvs & K).
  { assert (forall o n, In (o, n) names -> dget v n <> None) as Z.
    { intros o n I. specialize (Y o). unfold cell in Y. rewrite (wf_In_dget _ _ _ names_wf I) in Y. apply Y.
      apply in_or_app. left. now apply (in_map fst) in I. }
    clear - Z. unfold names in *. clear names. induction (t_names th) as [|[k n] ns IH].
    - exists []. constructor.
    - destruct IH as (kvs & F). { intros o m I. apply (Z o m). now right. }
      destruct (dget v n) as [x|] eqn:D; [|exfalso; apply (Z k n); [now left | exact D]].
      exists ((k, x) :: kvs). constructor; [split; [reflexivity | exact D] | exact F]. }
  assert (forall o, In o FORC_OUTPUT_LIST -> In o (output_names names)) as IO by (intros o I; apply in_or_app; now right).
  assert (exists s, nth_error (d_sun c) i = Some s) as (s & S1).
  { pose proof (Y "Solar_forcing" (IO "Solar_forcing" ltac:(cbn; tauto))) as Z. unfold cell in Z.
    rewrite forc_name_none in Z by (cbn; tauto). cbn in Z. destruct (nth_error (d_sun c) i); [eauto | congruence]. }
  assert (exists s, nth_error (d_vn c) i = Some s) as (vn & S2).
  { pose proof (Y "Volcanic_forcing_NH" (IO "Volcanic_forcing_NH" ltac:(cbn; tauto))) as Z. unfold cell in Z.
    rewrite forc_name_none in Z by (cbn; tauto). cbn in Z. destruct (nth_error (d_vn c) i); [eauto | cbn in Z; congruence]. }
  assert (exists s, nth_error (d_vs c) i = Some s) as (vs & S3).
  { pose proof (Y "Volcanic_forcing_SH" (IO "Volcanic_forcing_SH" ltac:(cbn; tauto))) as Z. unfold cell in Z.
    rewrite forc_name_none in Z by (cbn; tauto). cbn in Z. destruct (nth_error (d_vs c) i); [eauto | cbn in Z; congruence]. }
  destruct (puts_total i (kvs ++ forc_cells f s (nmean vn) (nmean vs)) r) as (r' & E).
  - rewrite (cells_keys v) by assumption. exact DO.
  - intros k x I. apply X. rewrite <- (cells_keys v f kvs s vn vs K). now apply (in_map fst) in I.
  - exists r'. apply add_year_ok. exists kvs, s, vn, vs. tauto.
Qed.

(** ** fresh arrays *)
Lemma init_arrays_get r o : dget (init_arrays T th c r) o =
  if in_dec string_dec o (output_names names) then Some (Arr (repeat #0 (d_years c))) else dget r o.
Proof.
  unfold init_arrays. fold names. change (dkeys names ++ FORC_OUTPUT_LIST) with (output_names names).
  generalize (output_names names) as ks. clear DO.
  assert (forall ks (r : results A), dget (fold_left (fun r k => dset r k (Arr (repeat #0 (d_years c)))) ks r) o =
     if in_dec string_dec o ks then Some (Arr (repeat #0 (d_years c))) else dget r o) as X.
  { induction ks as [|k ks IH]; intros r0; cbn [fold_left].
    - destruct (in_dec string_dec o []) as [[]|]; reflexivity.
    - rewrite IH. destruct (in_dec string_dec o ks) as [I|NI].
      + destruct (in_dec string_dec o (k :: ks)) as [_|X]; [reflexivity | exfalso; apply X; now right].
      + destruct (string_dec k o) as [->|NE].
        * rewrite dget_dset_eq. destruct (in_dec string_dec o (o :: ks)) as [_|X]; [reflexivity | exfalso; apply X; now left].
        * rewrite dget_dset_neq by assumption.
          destruct (in_dec string_dec o (k :: ks)) as [[X|X]|_]; [congruence | contradiction | reflexivity]. }
  intros ks. apply X.
Qed.

(** ** the loop *)
Context {H : Type} (emi2conc : H -> Z -> option (dict A) -> result H)
  (conc2forc : H -> Z -> A -> A -> result (H * (A * A * A * A)))
  (fl : option (list string)).
Let dyear := driver_year T th c H emi2conc conc2forc fl.
Let dyears := driver_years T th c H emi2conc conc2forc fl.

(** arrays filled for the first years, zeros afterwards *)
Definition filled (tr : list (dict A * A)) (r : results A) : Prop :=
  forall o, In o (output_names names) -> exists col,
    dget r o = Some (Arr (col ++ repeat #0 (d_years c - List.length tr))) /\ List.length col = List.length tr /\
    forall n v f, nth_error tr n = Some (v, f) -> nth_error col n = cell names c o n v f.
Lemma filled_init r : filled [] (init_arrays T th c r).
Proof.
  intros o I. exists []. rewrite init_arrays_get. destruct (in_dec string_dec o (output_names names)); [|contradiction].
  cbn. rewrite Nat.sub_0_r. split; [reflexivity|]. split; [reflexivity|]. intros [|n] v f E; discriminate.
Qed.
Lemma filled_snoc tr r v f r' : filled tr r -> (List.length tr < d_years c)%nat ->
  add_year T th c v f (List.length tr) r = Ok r' -> filled (tr ++ [(v, f)]) r'.
Proof.
  intros F L E o I. apply add_year_cells in E as [E _]. destruct (E o I) as (l & x & G1 & G2 & G3 & G4).
  destruct (F o I) as (col & C1 & C2 & C3). rewrite C1 in G1. injection G1 as <-.
  destruct (d_years c - List.length tr)%nat as [|m] eqn:M; [lia|]. cbn [repeat] in *.
  rewrite <- C2, set_nth_app in G4. exists (col ++ [x]). rewrite app_length. cbn [List.length].
  replace (d_years c - (List.length tr + 1))%nat with m by lia. rewrite <- app_assoc. split; [exact G4|].
  split; [rewrite app_length; cbn; lia|]. intros n v0 f0 N0.
  destruct (Nat.lt_ge_cases n (List.length tr)).
  - rewrite nth_error_app1 in N0 by lia. rewrite nth_error_app1 by lia. now apply C3.
  - rewrite nth_error_app2 in N0 by lia. rewrite nth_error_app2 by lia. rewrite C2.
    assert (n = List.length tr) as ->.
    { destruct (n - List.length tr)%nat as [|[|q]] eqn:Q; cbn in N0; try discriminate. lia. }
    rewrite Nat.sub_diag in *. cbn in *. injection N0 as <- <-. now symmetry.
Qed.
Lemma filled_complete tr r : filled tr r -> List.length tr = d_years c -> complete names c tr r.
Proof.
  intros F L o I. destruct (F o I) as (col & C1 & C2 & C3). exists col. rewrite L, Nat.sub_diag in C1. cbn in C1.
  rewrite app_nil_r in C1. tauto.
Qed.

(** what one successful year does *)
Lemma year_parts s y s' : dyear s y = Ok s' ->
  exists v f i h, t_year th (l_t s) i = Ok (l_t s', v) /\ l_values s' = Some v /\ l_h s' = h /\
    add_year T th c v f (Z.to_nat (y - d_start c)) (l_res s) = Ok (l_res s') /\
    nth_error (d_vn c) (Z.to_nat (y - d_start c)) = Some (i_vn i) /\
    nth_error (d_vs c) (Z.to_nat (y - d_start c)) = Some (i_vs i) /\
    match d_rf c with
    | Some rf => rf_forc_set c rf y = Ok (i_nh i, i_sh i, f, i_w i) /\ h = l_h s
    | None => exists h1 luc sun, emi2conc (l_h s) y (feedback_arg fl (l_values s)) = Ok h1 /\
        nth_error (d_luc c) (Z.to_nat (y - d_start c)) = Some luc /\
        nth_error (d_sun c) (Z.to_nat (y - d_start c)) = Some sun /\
        conc2forc h1 y luc sun = Ok (h, (f, i_nh i, i_sh i, i_w i))
    end.
Proof.
  unfold dyear, driver_year. intros E. apply rbind_ok in E as ([h [[[fn fs] f] w]] & E1 & E).
  apply rbind_ok in E as (vn & E2 & E). apply rbind_ok in E as (vs & E3 & E).
  apply rbind_ok in E as ([t' v] & E4 & E). apply rbind_ok in E as (r & E5 & [= <-]). cbn [fst snd l_t l_values l_h l_res] in *.
  apply iloc_ok in E2. apply iloc_ok in E3.
  exists v, f, {| i_w := w; i_nh := fn; i_sh := fs; i_vn := vn; i_vs := vs |}, h.
  do 3 (split; [assumption || reflexivity|]). split; [exact E5|]. cbn [i_vn i_vs i_nh i_sh i_w]. do 2 (split; [assumption|]).
  destruct (d_rf c) as [rf|].
  - apply rbind_ok in E1 as (q & Q1 & [= <- ->]). split; [exact Q1 | reflexivity].
  - apply rbind_ok in E1 as (h1 & Q1 & E1). apply rbind_ok in E1 as (luc & Q2 & E1). apply rbind_ok in E1 as (sun & Q3 & E1).
    apply rbind_ok in E1 as ([h' [[[f' fn'] fs'] w']] & Q4 & [= <- <- <- <- <-]).
    apply iloc_ok in Q2. apply iloc_ok in Q3. exists h1, luc, sun. tauto.
Qed.
Lemma year_res_frame s y s' o : dyear s y = Ok s' -> ~ In o (output_names names) -> dget (l_res s') o = dget (l_res s) o.
Proof.
  intros E NI. apply year_parts in E as (v & f & i & h & _ & _ & _ & E & _). apply add_year_cells in E as [_ E]. now apply E.
Qed.

(** the trace of a sequence of years *)
Inductive steps : loop A T H -> nat -> list (dict A * A) -> loop A T H -> Prop :=
| steps_nil s n : steps s n [] s
| steps_cons s n s1 v f tr s2 : dyear s (d_start c + Z.of_nat n)%Z = Ok s1 -> l_values s1 = Some v ->
    add_year T th c v f n (l_res s) = Ok (l_res s1) ->
    steps s1 (S n) tr s2 -> steps s n ((v, f) :: tr) s2.
Lemma row_of n : Z.to_nat (d_start c + Z.of_nat n - d_start c) = n.
Proof. lia. Qed.
Lemma zrange_S a n : zrange a (S n) = a :: zrange (a + 1) n.
Proof.
  unfold zrange. cbn [seq map]. f_equal; [lia|]. rewrite <- seq_shift, map_map. apply map_ext. intros k. lia.
Qed.
Lemma years_steps m : forall s n s', dyears s (zrange (d_start c + Z.of_nat n) m) = (s', None) ->
  exists tr, steps s n tr s' /\ List.length tr = m.
Proof.
  induction m as [|m IH]; intros s n s' E.
  - cbn in E. injection E as <-. exists []. split; [constructor | reflexivity].
  - rewrite zrange_S in E. unfold dyears in E. cbn [driver_years] in E. fold dyears in E. fold dyear in E.
    destruct (dyear s (d_start c + Z.of_nat n)%Z) as [s1|e] eqn:D; [|discriminate].
    replace (d_start c + Z.of_nat n + 1)%Z with (d_start c + Z.of_nat (S n))%Z in E by lia.
    destruct (IH _ _ _ E) as (tr & X & Y).
    destruct (year_parts _ _ _ D) as (v & f & i & h & _ & V & _ & AY & _). rewrite row_of in AY.
    exists ((v, f) :: tr). split; [econstructor; eassumption | cbn; lia].
Qed.
Lemma steps_filled s n tr s' : steps s n tr s' -> forall tr0, List.length tr0 = n -> filled tr0 (l_res s) ->
  (n + List.length tr <= d_years c)%nat -> filled (tr0 ++ tr) (l_res s').
Proof.
  induction 1 as [s n | s n s1 v f tr s2 D V AY X IH]; intros tr0 L F B.
  - now rewrite app_nil_r.
  - cbn in B. change ((v, f) :: tr) with ([(v, f)] ++ tr). rewrite app_assoc. apply IH.
    + rewrite app_length. cbn. lia.
    + apply (filled_snoc tr0 (l_res s)); [assumption | lia | rewrite L; exact AY].
    + lia.
Qed.
Lemma run_years_complete t0 h0 r s : run_years T th c H emi2conc conc2forc fl t0 h0 r = (s, None) ->
  exists tr, steps {| l_t := t0; l_h := h0; l_values := None; l_res := init_arrays T th c r |} 0 tr s /\
    List.length tr = d_years c /\ complete names c tr (l_res s).
Proof.
  unfold run_years, year_list. intros E. fold dyears in E. rewrite <- (Z.add_0_r (d_start c)) in E at 1.
  destruct (years_steps _ _ 0%nat _ E) as (tr & X & L). exists tr. split; [exact X|]. split; [exact L|].
  apply filled_complete; [|exact L]. change tr with ([] ++ tr). eapply steps_filled; [exact X | reflexivity | apply filled_init | cbn; lia].
Qed.
Lemma years_frame ys : forall s s' e o, dyears s ys = (s', e) -> ~ In o (output_names names) -> dget (l_res s') o = dget (l_res s) o.
Proof.
  induction ys as [|y ys IH]; intros s s' e o E NI; unfold dyears in E; cbn [driver_years] in E; fold dyears in E; fold dyear in E.
  - now injection E as <- _.
  - destruct (dyear s y) as [s1|e1] eqn:D; [|now injection E as <- _].
    rewrite (IH _ _ _ _ E NI). eapply year_res_frame; eassumption.
Qed.

(** ** forcing runs *)
Lemma forc_set_input rf n i f vn vs fn fs w : d_rf c = Some rf ->
  rf_forc_set c rf (d_start c + Z.of_nat n)%Z = Ok (fn, fs, f, w) ->
  nth_error (d_vn c) n = Some vn -> nth_error (d_vs c) n = Some vs ->
  i = {| i_w := w; i_nh := fn; i_sh := fs; i_vn := vn; i_vs := vs |} -> year_input c rf n i f.
Proof.
  intros R E V1 V2 ->. unfold rf_forc_set in E. rewrite row_of in E.
  apply rbind_ok in E as ([[[fn0 fs0] f0] w0] & E1 & E). apply rbind_ok in E as (s & E2 & [= <- <- <- <-]).
  apply iloc_ok in E2. apply rf_row_ok in E1. exists fn0, fs0, f0, w0, s, vn, vs. tauto.
Qed.
Lemma given_fun rf y n a b d e a' b' d' e' : given_forcing rf y n a b d e -> given_forcing rf y n a' b' d' e' ->
  a = a' /\ b = b' /\ d = d' /\ e = e'.
Proof. intros X Y. apply rf_row_ok in X. apply rf_row_ok in Y. rewrite X in Y. injection Y; tauto. Qed.
Lemma year_input_fun rf n i f i' f' : year_input c rf n i f -> year_input c rf n i' f' -> i = i' /\ f = f'.
Proof.
  intros (fn & fs & g & w & s & vn & vs & G & S1 & S2 & S3 & -> & ->) (fn' & fs' & g' & w' & s' & vn' & vs' & G' & S1' & S2' & S3' & -> & ->).
  destruct (given_fun _ _ _ _ _ _ _ _ _ _ _ G G') as (-> & -> & -> & ->).
  rewrite S1 in S1'. rewrite S2 in S2'. rewrite S3 in S3'. injection S1' as ->. injection S2' as ->. injection S3' as ->. tauto.
Qed.
Lemma steps_forced rf s n tr s' : d_rf c = Some rf -> steps s n tr s' -> forced th c rf n (l_t s) tr.
Proof.
  intros R. induction 1 as [s n | s n s1 v f tr s2 D V AY X IH]; [constructor|].
  destruct (year_parts _ _ _ D) as (v' & f' & i & h & TY & V' & _ & AY' & V1 & V2 & Q). rewrite row_of in *.
  rewrite V in V'. injection V' as <-. rewrite R in Q. destruct Q as [Q _].
  assert (f = f') as <-.
  { apply add_year_cells in AY as [AY _]. apply add_year_cells in AY' as [AY' _].
    assert (In "Total_forcing" (output_names names)) as I by (apply in_or_app; right; now left).
    destruct (AY _ I) as (l & x & _ & _ & C1 & _). destruct (AY' _ I) as (l' & x' & _ & _ & C2 & G2).
    destruct (AY _ I) as (l3 & x3 & L3 & L3' & C3 & G3). destruct (AY' _ I) as (l4 & x4 & L4 & L4' & C4 & G4).
    rewrite G3 in G4. rewrite L3 in L4. injection L4 as <-. injection G4 as G4.
    assert (x3 = x4).
    { apply (f_equal (fun z => nth n z x3)) in G4. rewrite !set_nth_nth, !Nat.eqb_refl in G4 by assumption. exact G4. }
    unfold cell in C3, C4. rewrite forc_name_none in C3, C4 by (cbn; tauto). cbn in C3, C4. congruence. }
  eapply forced_cons with (i := i) (t' := l_t s1); [|exact TY | exact IH].
  eapply forc_set_input; try eassumption. destruct i; reflexivity.
Qed.
End Loop.
End Facts.
