(** * P_Reading6: content of the remaining inputs (C102) *)
From Coq Require Import QArith Lia.
From Verif Require Import PyBase PyBaseFacts Num M_Utils M_Pams M_Gas M_Driver M_Input M_Whole M_Reading Spec_Input Spec_Reading P_Input P_Input2 P_Reading P_Reading2.

Section Read.
Context {A : Type} {N : Num A}.
Variables (nan : A) (fs : files A) (object : pyval -> option (thing A)) (dir cwd : string).
Lemma existing_file cfg what p t : dget cfg (what ++ "_file") = Some p -> fs_exists fs (CV p) = true ->
  input nan fs object dir cwd cfg what t -> exists m, dget (spec_methods cfg) what = Some m /\ read_by nan fs m (CV p) = Ok t.
Proof.
  intros P EX (m & d & M & S & C). exists m. split; [exact M|].
  assert (given cfg what = true) as GV by (unfold given, dmem; now rewrite P).
  destruct S as [q q' F R | years F SV ON Y | v F D SV | E G | E G ON | E G1 G2 ON | c C' years d g r PR E G S GT GR Y]; try congruence.
  - rewrite P in F. injection F as <-. unfold file_read in R. rewrite EX in R. subst q'. exact C.
  - exfalso. destruct E as [-> | ->]; congruence.
Qed.
Lemma optional_file cfg what p o : dget cfg (what ++ "_file") = Some p -> fs_exists fs (CV p) = true ->
  optional_input nan fs object dir cwd cfg what o -> exists t m, o = Some t /\ dget (spec_methods cfg) what = Some m /\ read_by nan fs m (CV p) = Ok t.
Proof.
  intros P EX O. assert (given cfg what = true) as GV by (unfold given, dmem; now rewrite P).
  destruct o as [t|]; cbn [optional_input] in O; [|congruence]. destruct O as [_ I]. destruct (existing_file cfg what p t P EX I) as (m & M & R). now exists t, m.
Qed.
Lemma c102_gases cfg x p g : wf cfg -> read_data nan fs object dir cwd cfg = Ok x -> x_forc x = None ->
  dget cfg "gaspam_file" = Some p -> fs_exists fs (CV p) = true -> fs_gas fs (CV p) = Ok g -> x_gas x = map (fun kl => (fst kl, gl_gas (snd kl))) g.
Proof.
  intros W R NF P EX F. destruct (c102_fields _ _ _ _ _ _ _ W R) as (_ & HX & _). destruct (HX NF) as ((g' & I & ->) & _).
  apply (existing_file cfg "gaspam" p) in I as (m & M & B); [|exact P | exact EX]. injection M as <-. cbn [read_by] in B. rewrite F in B. cbn [rbind] in B. now injection B as ->.
Qed.
Lemma opened cfg x : read_data nan fs object dir cwd cfg = Ok x -> exists h, open_inputs nan fs object dir cwd cfg = Ok h.
Proof. unfold read_data. destruct (open_inputs nan fs object dir cwd cfg) as [h|]; [intros _; now exists h | discriminate]. Qed.
Lemma input_unique cfg x what t t' : wf cfg -> read_data nan fs object dir cwd cfg = Ok x -> input nan fs object dir cwd cfg what t -> input nan fs object dir cwd cfg what t' -> t = t'.
Proof.
  intros W R I I'. destruct (opened cfg x R) as (h & O). pose proof (input_get _ _ _ _ _ cfg h what t W O I) as G. pose proof (input_get _ _ _ _ _ cfg h what t' W O I') as G'.
  rewrite G in G'. now injection G'.
Qed.
Lemma rows_nat (g0 : dict (gasline A)) c r g : dget (gas_rows g0) c = Some r -> dget (map (fun kl => (fst kl, gl_gas (snd kl))) g0) c = Some g -> nat_em r = g_nat g.
Proof.
  unfold gas_rows. intros GR G. induction g0 as [|[k l] t IH]; [discriminate|]. cbn [map dget fst snd] in GR, G. destruct (String.eqb k c); [|now apply IH].
  injection GR as <-. injection G as <-. reflexivity.
Qed.
Lemma flat_get c (v : A) a b y : (a <= y <= b)%Z -> fr_get (Build_frame (zrange a (Z.to_nat (b + 1 - a))) [(c, map (fun _ => v) (zrange a (Z.to_nat (b + 1 - a))))]) c y = Ok v.
Proof.
  intros Y. unfold fr_get, fr_col. cbn [fr_cols fr_index dget]. rewrite String.eqb_refl. cbn [key rbind].
  pose proof (yget_zrange (map (fun _ => v) (zrange a (Z.to_nat (b + 1 - a)))) a (Z.to_nat (y - a))) as X.
  rewrite map_length, zrange_length in X. replace (a + Z.of_nat (Z.to_nat (y - a)))%Z with y in X by lia. rewrite X, nth_error_map.
  destruct (nth_error (zrange a (Z.to_nat (b + 1 - a))) (Z.to_nat (y - a))) eqn:E; [reflexivity|]. apply nth_error_None in E. rewrite zrange_length in E. lia.
Qed.
Lemma c102_natural cfg x : wf cfg -> read_data nan fs object dir cwd cfg = Ok x -> x_forc x = None -> forall what c f,
  In (what, c, f) [("nat_ch4", "CH4", x_nat_ch4 x); ("nat_n2o", "N2O", x_nat_n2o x)] ->
  (forall p values, dget cfg (what ++ "_file") = Some p -> fs_exists fs (CV p) = true -> fs_column fs (CV p) = Ok values ->
     List.length values = 751 /\ forall y, (1750 <= y <= 2500)%Z -> exists v, nth_error values (Z.to_nat (y - 1750)) = Some v /\ fr_get f c y = Ok v) /\
  (given cfg what = false -> forall g a b, wf (x_gas x) -> dget (x_gas x) c = Some g -> run_window cfg a b -> forall y, (a <= y <= b)%Z -> fr_get f c y = Ok (g_nat g)).
Proof.
  intros W R NF what c f I. destruct (c102_fields _ _ _ _ _ _ _ W R) as (_ & HX & _). destruct (HX NF) as ((g0 & IG & GE) & I1 & I2 & _).
  assert (input nan fs object dir cwd cfg what (TFrame f) /\ dget (spec_methods cfg) what = Some (MNatural c) /\ ((what, c) = ("nat_ch4", "CH4") \/ (what, c) = ("nat_n2o", "N2O"))) as (IN & MM & WC).
  { destruct I as [E|[E|[]]]; injection E as <- <- <-; (split; [assumption|]); (split; [reflexivity|]); auto. }
  split.
  - intros p values P EX F. apply (existing_file cfg what p) in IN as (m & M & B); [|exact P | exact EX]. rewrite MM in M. injection M as <-.
    cbn [read_by] in B. rewrite F in B. cbn [rbind] in B. bindx B f' E. injection B as ->.
    destruct (c80_read values c) as [C _]. split; [now apply (C f)|]. intros y Y.
    destruct (c80_year values c f (Z.to_nat (y - 1750)) E) as (v & V & G); [lia|]. exists v. split; [exact V|]. rewrite <- G. f_equal. lia.
  - intros NG g a b WG G [RA RB] y Y. destruct IN as (m & d & M & S & C). unfold given in NG. apply Bool.orb_false_iff in NG as [NG1 NG2].
    unfold dmem in NG1, NG2.
    destruct S as [q q' F R' | years F SV ON Y' | v F D SV | E G' | E G' ON | E G1 G2 ON | c' C' years d g' r PR E G' S GT GR Y'].
    + rewrite F in NG1. discriminate.
    + exfalso. destruct WC as [E|E]; injection E as -> ->; discriminate.
    + rewrite D in NG2. discriminate.
    + exfalso. destruct WC as [E'|E']; injection E' as -> ->; discriminate.
    + exfalso. destruct WC as [E'|E']; injection E' as -> ->; discriminate.
    + exfalso. destruct WC as [E'|E']; injection E' as -> ->; destruct E; discriminate.
    + assert (C' = c) as -> by (destruct WC as [E'|E']; injection E' as -> ->; destruct PR as [X|X]; injection X as -> ->; congruence).
      cbn [content] in C. injection C as <-. destruct Y' as (a' & b' & A' & B' & ->). rewrite A' in RA. rewrite B' in RB. injection RA as ->. injection RB as ->.
      assert (nat_em r = g_nat g) as ->.
      { unfold gas_table, gas_content in GT. bindx GT gg CT. injection GT as <-. bindx CT th CC. destruct th as [|g1| | |]; try discriminate. injection CT as <-.
        assert (input nan fs object dir cwd cfg "gaspam" (TGas g1)) as IG' by (exists MComponents, d; repeat split; assumption).
        pose proof (input_unique cfg x "gaspam" _ _ W R IG IG') as U. injection U as <-. rewrite GE in G. exact (rows_nat g0 c r g GR G). }
      now apply flat_get.
Qed.
Lemma c102_perturbations cfg x : wf cfg -> read_data nan fs object dir cwd cfg = Ok x -> x_forc x = None -> forall what o,
  In (what, o) [("perturb_em", x_perturb_em x); ("perturb_forc", x_perturb_forc x)] ->
  (given cfg what = false -> o = None) /\
  forall p t, dget cfg (what ++ "_file") = Some p -> fs_exists fs (CV p) = true -> fs_perturb fs (CV p) = Ok t -> o = Some t.
Proof.
  intros W R NF what o I. destruct (c102_fields _ _ _ _ _ _ _ W R) as (_ & HX & _). destruct (HX NF) as (_ & _ & _ & _ & _ & I1 & I2 & _).
  assert (optional_input nan fs object dir cwd cfg what (option_map (@TPerturb A) o) /\ (dget (spec_methods cfg) what = Some MCsvNoIndex \/ dget (spec_methods cfg) what = Some MCsv)) as [IN MM].
  { destruct I as [E|[E|[]]]; injection E as <- <-; (split; [assumption|]); [now left | now right]. }
  split.
  - intros G. destruct o; [|reflexivity]. cbn in IN. destruct IN; congruence.
  - intros p t P EX F. destruct (optional_file cfg what p _ P EX IN) as (t' & m & E & M & B).
    assert (t' = TPerturb t) as ->. { destruct MM as [MM|MM]; rewrite MM in M; injection M as <-; cbn [read_by] in B; rewrite F in B; cbn [rbind] in B; congruence. }
    destruct o; [|discriminate]. cbn in E. congruence.
Qed.
Lemma filled_get f c : dget (fr_cols (filled nan f)) c = option_map (map (fun o => match o with Some v => v | None => nan end)) (dget (fr_cols f) c).
Proof. unfold filled. cbn [fr_cols]. induction (fr_cols f) as [|[k l] t IH]; [reflexivity|]. cbn [map dget fst snd]. destruct (String.eqb k c); [reflexivity | exact IH]. Qed.
Lemma c102_forcing cfg x p line : wf cfg -> read_data nan fs object dir cwd cfg = Ok x ->
  dget cfg "forc_file" = Some p -> fs_exists fs (CV p) = true -> fs_first_line fs (CV p) = Ok line ->
  (is_component_file line = false -> forall l, fs_numbers fs (CV p) = Ok l -> x_forc x = Some (RfArray l)) /\
  (is_component_file line = true -> forall f, fs_components fs (CV p) = Ok f -> exists g, x_forc x = Some (RfFrame g) /\ fr_index g = fr_index (read_forc_table f) /\
     forall c, dget (fr_cols g) c = option_map (map (fun o => match o with Some v => v | None => nan end)) (dget (fr_cols (read_forc_table f)) c)).
Proof.
  intros W R P EX F. destruct (c102_fields _ _ _ _ _ _ _ W R) as (IN & _). destruct (optional_file cfg "forc" p _ P EX IN) as (t & m & E & M & B).
  injection M as <-. cbn [read_by] in B. rewrite F in B. cbn [rbind] in B. destruct (x_forc x) as [r|]; [|discriminate]. cbn in E. injection E as <-. split.
  - intros C l L. rewrite C, L in B. cbn [rbind] in B. congruence.
  - intros C f L. rewrite C, L in B. cbn [rbind] in B. injection B as <-. eexists. split; [reflexivity|]. split; [reflexivity|]. intros c. apply filled_get.
Qed.
Lemma map_const {B C} (v : C) (l : list B) : map (fun _ => v) l = repeat v (List.length l).
Proof. induction l; cbn; congruence. Qed.
(** without the switch and without a file: zeros *)
Lemma c102_zeros cfg x a b : wf cfg -> read_data nan fs object dir cwd cfg = Ok x -> run_window cfg a b -> sunvolc_on cfg = false ->
  (forall what l, In (what, l) [("rf_volc_n", x_vn x); ("rf_volc_s", x_vs x)] -> dget cfg (what ++ "_file") = None -> l = repeat (repeat (nofZ 0) 12) (Z.to_nat (b - a + 1))) /\
  (dget cfg "rf_sun_file" = None -> x_sun x = repeat (nofZ 0) (Z.to_nat (b - a + 1))).
Proof.
  intros W R [RA RB] OFF. destruct (c102_fields _ _ _ _ _ _ _ W R) as (_ & _ & I1 & I2 & (rows & I3 & FC) & _).
  assert (forall what l, sun_volc what = true -> dget cfg (what ++ "_file") = None -> input nan fs object dir cwd cfg what (TRows l) ->
    l = repeat (repeat (nofZ 0) (if String.eqb what "rf_sun" then 1 else 12)) (Z.to_nat (b - a + 1))) as Z.
  { intros what l SV NF (m & d & M & S & C).
    destruct S as [q q' F R' | years F SV' ON Y' | v F D SV' | E G' | E G' ON | E G1 G2 ON | c' C' years d g' r PR E G' S GT GR Y']; try congruence.
    - cbn [content] in C. destruct Y' as (a' & b' & A' & B' & ->). rewrite A' in RA. rewrite B' in RB. injection RA as ->. injection RB as ->. injection C as <-.
      replace (b + 1 - a)%Z with (b - a + 1)%Z by lia. rewrite map_const, zrange_length. reflexivity.
    - rewrite SV, OFF in SV'. discriminate.
    - subst. discriminate.
    - exfalso. destruct PR as [X|X]; injection X as -> ->; subst; discriminate. }
  split.
  - intros what l [E|[E|[]]] NF; injection E as <- <-; [apply (Z "rf_volc_n") | apply (Z "rf_volc_s")]; auto.
  - intros NF. rewrite (Z "rf_sun" rows eq_refl NF I3) in FC. unfold first_cells in FC. change (if String.eqb "rf_sun" "rf_sun" then 1 else 12) with 1 in FC.
    revert FC. generalize (x_sun x). generalize (Z.to_nat (b - a + 1)). induction n; intros [|v l] FC; try discriminate; [reflexivity|]. cbn [repeat map hd_error] in FC. injection FC as <- FC. cbn [repeat]. f_equal. now apply IHn.
Qed.
Lemma nonzero (o : option pyfloat) : match o with Some (FFin q) => negb (Qeq_bool q 0) | _ => true end = true <-> forall q, o = Some (FFin q) -> ~ (q == 0)%Q.
Proof.
  destruct o as [[q| |]|]; try (split; [intros _ q' Q; discriminate | reflexivity]). rewrite negb_true_iff. split.
  - intros X q' Q. injection Q as <-. intros Z. apply Qeq_bool_iff in Z. congruence.
  - intros H. specialize (H q eq_refl). destruct (Qeq_bool q 0) eqn:Z; [apply Qeq_bool_iff in Z; contradiction | reflexivity].
Qed.
Lemma truth_spec v : truth v = true <-> v <> VNone /\ v <> VStr "" /\ forall q, num_of v = Some (FFin q) -> ~ (q == 0)%Q.
Proof.
  destruct v; cbn [truth]; rewrite ?nonzero;
    try (split; [intros H; split; [discriminate|]; split; [discriminate | exact H] | intros (_ & _ & H); exact H]; fail).
  - rewrite negb_true_iff, String.eqb_neq. split; [intros H; split; [discriminate|]; split; [congruence | discriminate] | intros (_ & H & _); congruence].
  - split; [discriminate | intros (H & _); now contradiction H].
Qed.
Lemma c102_conc_run cfg x : wf cfg -> read_data nan fs object dir cwd cfg = Ok x -> x_forc x = None ->
  x_conc_run x = true <-> exists v, dget cfg "conc_run" = Some v /\ v <> VNone /\ v <> VStr "" /\ forall q, num_of v = Some (FFin q) -> ~ (q == 0)%Q.
Proof.
  intros W R NF. destruct (c102_fields _ _ _ _ _ _ _ W R) as (_ & HX & _). destruct (HX NF) as (_ & _ & _ & _ & _ & _ & _ & ->).
  destruct (dget cfg "conc_run") as [v|].
  - rewrite truth_spec. split; [intros H; now exists v | intros (w & E & H); now injection E as <-].
  - split; [discriminate | intros (v & E & _); discriminate].
Qed.
Lemma c102_forcing_run cfg x : wf cfg -> read_data nan fs object dir cwd cfg = Ok x ->
  (x_forc x = None <-> dget cfg "forc_file" = None /\ dget cfg "forc_data" = None) /\
  forall h, open_inputs nan fs object dir cwd cfg = Ok h -> get_rf_type h = true <-> x_forc x <> None.
Proof.
  intros W R. destruct (c102_fields _ _ _ _ _ _ _ W R) as (F & _).
  assert (K : x_forc x = None <-> given cfg "forc" = false).
  { unfold optional_input in F. destruct (x_forc x); cbn [option_map] in F; [destruct F as [F _]; split; [discriminate|congruence]|tauto]. }
  split.
  - rewrite K. unfold given, dmem. cbn [append]. destruct (dget cfg "forc_file"), (dget cfg "forc_data"); cbn; intuition discriminate.
  - intros h O'. change (get_rf_type h) with (optional_pam h "forc"). rewrite (open_optional _ _ _ _ _ _ _ _ W O') by (left; reflexivity). rewrite K. destruct (given cfg "forc"); intuition congruence.
Qed.
End Read.
