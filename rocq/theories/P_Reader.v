(** * P_Reader: result variables by name (C69-C72) *)
From Coq Require Import Reals Lra Lia.
From Verif Require Import PyBase PyBaseFacts Num M_Gas M_Input M_Names M_Distro M_Carbon M_Driver M_Reader Spec_Reader P_Gas3.

(** ** Tables *)
Definition pair_eqb (a b : string * string) : bool := String.eqb (fst a) (fst b) && String.eqb (snd a) (snd b).
Lemma pair_eqb_eq a b : pair_eqb a b = true -> a = b.
Proof. destruct a, b. unfold pair_eqb. cbn [fst snd]. rewrite andb_true_iff, !String.eqb_eq. intros [-> ->]. reflexivity. Qed.
Definition opt_is (o : option string) (s : string) : bool := match o with Some x => String.eqb x s | None => false end.
Lemma opt_is_eq o s : opt_is o s = true -> o = Some s.
Proof. destruct o; cbn; [|discriminate]. rewrite String.eqb_eq. intros ->. reflexivity. Qed.
Lemma forallb_at {B} (f : B -> bool) l x : forallb f l = true -> In x l -> f x = true.
Proof. intros H I. exact (proj1 (forallb_forall f l) H x I). Qed.

Definition is_conc (p : string * string) : bool := contains "Concentration" (fst p) && opt_is (dget variable_dict (fst p)) (snd p).
Lemma conc_table v g : In (v, g) concentration_variables -> contains "Concentration" v = true /\ dget variable_dict v = Some g.
Proof.
  intros I. assert (H : forallb is_conc concentration_variables = true) by (vm_compute; reflexivity).
  apply (forallb_at _ _ _ H) in I. unfold is_conc in I. cbn [fst snd] in I. apply andb_true_iff in I. destruct I as [I J].
  split; [exact I|exact (opt_is_eq _ _ J)].
Qed.
Definition is_em (p : string * string) : bool :=
  negb (contains "Concentration" (fst p)) && contains "Emissions" (fst p) && opt_is (dget variable_dict (fst p)) (snd p).
Lemma em_table v g : In (v, g) emission_variables ->
  contains "Concentration" v = false /\ contains "Emissions" v = true /\ dget variable_dict v = Some g.
Proof.
  intros I. assert (H : forallb is_em emission_variables = true) by (vm_compute; reflexivity).
  apply (forallb_at _ _ _ H) in I. unfold is_em in I. cbn [fst snd] in I. rewrite !andb_true_iff, negb_true_iff in I. destruct I as [[I J] K].
  split; [exact I|]. split; [exact J|exact (opt_is_eq _ _ K)].
Qed.
Definition is_forc (v : string) : bool := negb (contains "Concentration" v) && negb (contains "Emissions" v) && contains "Forcing" v.
Lemma is_forc_spec v : is_forc v = true -> contains "Concentration" v = false /\ contains "Emissions" v = false /\ contains "Forcing" v = true.
Proof. unfold is_forc. rewrite !andb_true_iff, !negb_true_iff. intros [[A B] C]. auto. Qed.
Definition special (g : string) : bool := smem g forc_sums || smem g ["Fgas"; "GHG"] || String.eqb g "Total_forcing+sunvolc".
Lemma forc_table v g : In (v, g) forcing_variables -> is_forc v = true /\ dget variable_dict v = Some g /\ special g = false.
Proof.
  intros I. assert (H : forallb (fun p => is_forc (fst p) && opt_is (dget variable_dict (fst p)) (snd p) && negb (special (snd p))) forcing_variables = true)
    by (vm_compute; reflexivity).
  apply (forallb_at _ _ _ H) in I. cbn [fst snd] in I. rewrite !andb_true_iff, negb_true_iff in I. destruct I as [[I J] K].
  split; [exact I|]. split; [exact (opt_is_eq _ _ J)|exact K].
Qed.
Definition plain (v : string) : bool :=
  negb (contains "Concentration" v) && negb (contains "Emissions" v) && negb (contains "Forcing" v).
Lemma plain_spec v : plain v = true -> contains "Concentration" v = false /\ contains "Emissions" v = false /\ contains "Forcing" v = false.
Proof. unfold plain. rewrite !andb_true_iff, !negb_true_iff. intros [[A B] C]. auto. Qed.
Definition is_temp (p : string * string) : bool :=
  plain (fst p) && negb (dmem carbon_cycle_outputs (fst p)) && opt_is (dget variable_dict (fst p)) (snd p) &&
  smem (snd p) temp_list && negb (String.eqb (snd p) "RIB_glob").
Lemma temp_table v g : In (v, g) temperature_variables ->
  plain v = true /\ dget carbon_cycle_outputs v = None /\ dget variable_dict v = Some g /\ smem g temp_list = true /\ String.eqb g "RIB_glob" = false.
Proof.
  intros I. assert (H : forallb is_temp temperature_variables = true) by (vm_compute; reflexivity).
  apply (forallb_at _ _ _ H) in I. unfold is_temp in I. cbn [fst snd] in I. rewrite !andb_true_iff, !negb_true_iff in I.
  destruct I as [[[[I C] J] K] L]. split; [exact I|]. split; [apply dmem_false; exact C|]. split; [exact (opt_is_eq _ _ J)|]. split; [exact K|exact L].
Qed.
Definition is_ohc (p : string * string) : bool :=
  plain (fst p) && negb (dmem carbon_cycle_outputs (fst p)) && opt_is (dget variable_dict (fst p)) (snd p) &&
  negb (smem (snd p) temp_list) && smem (snd p) ohc_list.
Lemma ohc_table v g : In (v, g) heat_content_variables ->
  plain v = true /\ dget carbon_cycle_outputs v = None /\ dget variable_dict v = Some g /\ smem g temp_list = false /\ smem g ohc_list = true.
Proof.
  intros I. assert (H : forallb is_ohc heat_content_variables = true) by (vm_compute; reflexivity).
  apply (forallb_at _ _ _ H) in I. unfold is_ohc in I. cbn [fst snd] in I. rewrite !andb_true_iff, !negb_true_iff in I.
  destruct I as [[[[I C] J] K] L]. split; [exact I|]. split; [apply dmem_false; exact C|]. split; [exact (opt_is_eq _ _ J)|]. split; [exact K|exact L].
Qed.
Lemma all_published v : dget variable_dict v <> None \/ dget carbon_cycle_outputs v <> None -> In v published.
Proof.
  assert (H1 : forallb (fun p => smem (fst p) published) variable_dict = true) by (vm_compute; reflexivity).
  assert (H2 : forallb (fun p => smem (fst p) published) carbon_cycle_outputs = true) by (vm_compute; reflexivity).
  intros [H|H].
  - destruct (dget variable_dict v) as [n|] eqn:E; [|contradiction]. apply dget_Some_In in E.
    apply (forallb_at _ _ _ H1) in E. apply smem_In. exact E.
  - destruct (dget carbon_cycle_outputs v) as [n|] eqn:E; [|contradiction]. apply dget_Some_In in E.
    apply (forallb_at _ _ _ H2) in E. apply smem_In. exact E.
Qed.

(** ** Lists *)
Lemma index_of_spec x l n : index_of x l = Ok n <-> nth_error l n = Some x /\ (forall m, (m < n)%nat -> nth_error l m <> Some x).
Proof.
  revert n. induction l as [|y l IH]; intros n; cbn [index_of].
  - split; [discriminate|]. intros [H _]. destruct n; discriminate.
  - destruct (String.eqb_spec y x).
    + subst. split.
      * intros H; inversion H; subst. split; [reflexivity|]. intros m L; lia.
      * intros [H K]. destruct n as [|n]; [reflexivity|]. exfalso. apply (K 0%nat); [lia|reflexivity].
    + destruct (index_of x l) as [k|] eqn:E; cbn [rbind].
      * split.
        -- intros H; inversion H; subst. destruct (proj1 (IH k) eq_refl) as [P Q]. split; [exact P|].
           intros [|m] L; cbn; [congruence|]. apply Q. lia.
        -- intros [H K]. destruct n as [|n']; [cbn in H; congruence|]. f_equal. f_equal.
           assert (G : Ok k = Ok n'). { apply IH. split; [exact H|]. intros m L. exact (K (S m) (proj1 (Nat.succ_lt_mono _ _) L)). }
           inversion G; reflexivity.
      * split; [discriminate|]. intros [H K]. destruct n as [|n']; [cbn in H; congruence|].
        assert (G : Err e = Ok n'). { apply IH. split; [exact H|]. intros m L. exact (K (S m) (proj1 (Nat.succ_lt_mono _ _) L)). }
        discriminate.
Qed.
Lemma unit_at_spec u l c x : unit_at u l c = Ok x <-> beside (u_components u) l c x.
Proof.
  unfold unit_at, beside, iloc. split.
  - destruct (index_of c (u_components u)) as [n|] eqn:E; cbn [rbind]; [|discriminate]. apply index_of_spec in E. destruct E as [P Q].
    destruct (nth_error l n) as [y|] eqn:F; [|discriminate]. intros H; inversion H; subst. exists n. auto.
  - intros [n [P [Q F]]]. rewrite (proj2 (index_of_spec _ _ n) (conj P Q)). cbn [rbind]. rewrite F. reflexivity.
Qed.

Section Any.
Context {A : Type} {N : Num A}.
Implicit Types r : results A.

Lemma fr_col_spec (f : frame A) c v : fr_col f c = Ok v <-> dget (fr_cols f) c = Some v.
Proof. unfold fr_col, key. destruct (dget (fr_cols f) c); split; intros H; inversion H; reflexivity. Qed.
Lemma frame_at_spec r k f : frame_at r k = Ok f <-> dget r k = Some (Fr f).
Proof. unfold frame_at. destruct (dget r k) as [[l|g]|]; split; intros H; inversion H; reflexivity. Qed.
Lemma array_at_spec r k l : array_at r k = Ok l <-> dget r k = Some (Arr l).
Proof. unfold array_at. destruct (dget r k) as [[g|g]|]; split; intros H; inversion H; reflexivity. Qed.
Lemma frame_cols r k c1 c2 v1 v2 : (exists f, frame_at r k = Ok f /\ fr_col f c1 = Ok v1 /\ fr_col f c2 = Ok v2) <->
  in_frame r k c1 v1 /\ in_frame r k c2 v2.
Proof.
  unfold in_frame. split.
  - intros [f [F [P Q]]]. apply frame_at_spec in F. apply fr_col_spec in P, Q. split; exists f; auto.
  - intros [[f [F P]] [g [G Q]]]. rewrite F in G. inversion G; subst. exists g. rewrite frame_at_spec, !fr_col_spec. auto.
Qed.

Lemma c72_concentration nys nye r u v g ys ts unit : In (v, g) concentration_variables ->
  get_variable_timeseries nys nye r v u = Ok (ys, ts, unit) <->
  in_frame r "concentrations" "Year" ys /\ in_frame r "concentrations" g ts /\ beside (u_components u) (u_concunits u) g unit.
Proof.
  intros I. apply conc_table in I. destruct I as [C D]. unfold get_variable_timeseries. cbv zeta. rewrite C, D. unfold from_conc. split.
  - intros H. dbind H. dbind E. dbind E. dbind E. inversion E; subst. dbind H. inversion H; subst.
    apply unit_at_spec in E3. rewrite <- and_assoc. split; [|exact E3]. apply frame_cols. exists v1. auto.
  - intros [P [Q U]]. destruct (proj2 (frame_cols _ _ _ _ _ _) (conj P Q)) as [f [F [X Y]]]. rewrite F. cbn [rbind]. rewrite X. cbn [rbind].
    rewrite Y. cbn [rbind]. apply unit_at_spec in U. rewrite U. reflexivity.
Qed.
Lemma c72_emission nys nye r u v g ys ts unit : In (v, g) emission_variables ->
  get_variable_timeseries nys nye r v u = Ok (ys, ts, unit) <->
  in_frame r "emissions" "Year" ys /\
  (exists cc, dget r "carbon cycle" = Some (Fr cc) /\
     match dget (fr_cols cc) "Emissions" with
     | Some back => if String.eqb g "CO2" then ts = back else in_frame r "emissions" g ts
     | None => in_frame r "emissions" g ts
     end) /\ beside (u_components u) (u_units u) g unit.
Proof.
  intros I. apply em_table in I. destruct I as [C [D E]]. unfold get_variable_timeseries. cbv zeta. rewrite C, D, E. unfold from_em. split.
  - intros H. dbind H. dbind E0. dbind E0. dbind E0. dbind E0. inversion E0; subst. dbind H. inversion H; subst.
    apply unit_at_spec in E5. apply frame_at_spec in E1, E3. apply fr_col_spec in E2. split; [exists v1; auto|]. split; [|exact E5].
    exists v3. split; [exact E3|]. unfold dmem in E4. destruct (dget (fr_cols v3) "Emissions") as [b|] eqn:B.
    + cbn [andb] in E4. destruct (String.eqb g "CO2").
      * apply fr_col_spec in E4. congruence.
      * apply fr_col_spec in E4. exists v1; auto.
    + cbn [andb] in E4. apply fr_col_spec in E4. exists v1; auto.
  - intros [[f [F P]] [[cc [G Q]] U]]. rewrite (proj2 (frame_at_spec _ _ _) F). cbn [rbind]. rewrite (proj2 (fr_col_spec _ _ _) P). cbn [rbind].
    rewrite (proj2 (frame_at_spec _ _ _) G). cbn [rbind]. apply unit_at_spec in U. unfold dmem. destruct (dget (fr_cols cc) "Emissions") as [b|] eqn:B.
    + cbn [andb]. destruct (String.eqb g "CO2").
      * subst. rewrite (proj2 (fr_col_spec _ _ _) B). cbn [rbind]. rewrite U. reflexivity.
      * destruct Q as [f' [F' Q]]. rewrite F in F'. inversion F'; subst. rewrite (proj2 (fr_col_spec _ _ _) Q). cbn [rbind]. rewrite U. reflexivity.
    + cbn [andb]. destruct Q as [f' [F' Q]]. rewrite F in F'. inversion F'; subst. rewrite (proj2 (fr_col_spec _ _ _) Q). cbn [rbind]. rewrite U. reflexivity.
Qed.
Lemma c72_emission_needs_carbon nys nye r u v g : In (v, g) emission_variables -> dget r "carbon cycle" = None ->
  forall q, get_variable_timeseries nys nye r v u <> Ok q.
Proof.
  intros I H [[ys ts] unit] G. apply (c72_emission _ _ _ _ _ _ _ _ _ I) in G. destruct G as [_ [[cc [K _]] _]]. congruence.
Qed.
Lemma from_forc_plain nys nye r g ys ts : special g = false ->
  from_forc nys nye r g = Ok (ys, ts) <-> in_frame r "forcing" "Year" ys /\ in_frame r "forcing" g ts.
Proof.
  unfold special. rewrite !orb_false_iff. intros [[S1 S2] S3]. unfold from_forc, forc_common. rewrite S1, S2, S3. split.
  - intros H. dbind H. dbind H. dbind H. inversion H; subst. apply frame_cols. exists v. auto.
  - intros P. apply frame_cols in P. destruct P as [f [F [X Y]]]. rewrite F. cbn [rbind]. rewrite X. cbn [rbind]. rewrite Y. reflexivity.
Qed.
Lemma get_forc nys nye r u v g ys ts unit : is_forc v = true -> dget variable_dict v = Some g ->
  get_variable_timeseries nys nye r v u = Ok (ys, ts, unit) <-> from_forc nys nye r g = Ok (ys, ts) /\ unit = "W/m^2".
Proof.
  intros I D. apply is_forc_spec in I. destruct I as [C [E F]]. unfold get_variable_timeseries. cbv zeta. rewrite C, E, F, D. split.
  - intros H. dbind H. inversion H; subst. auto.
  - intros [H ->]. rewrite H. reflexivity.
Qed.
Lemma c72_forcing nys nye r u v g ys ts unit : In (v, g) forcing_variables ->
  get_variable_timeseries nys nye r v u = Ok (ys, ts, unit) <->
  in_frame r "forcing" "Year" ys /\ in_frame r "forcing" g ts /\ unit = "W/m^2".
Proof.
  intros I. apply forc_table in I. destruct I as [I [D S]]. rewrite (get_forc _ _ _ _ _ _ _ _ _ I D), (from_forc_plain _ _ _ _ _ _ S). tauto.
Qed.
Lemma indices_window nys nye : indices (A := A) nys nye = window nys nye.
Proof. unfold indices, window, zrange. rewrite map_map. replace (nye + 1 - nys)%Z with (nye - nys + 1)%Z by lia. reflexivity. Qed.
Lemma c72_temperature nys nye r u v g ys ts unit : In (v, g) temperature_variables ->
  get_variable_timeseries nys nye r v u = Ok (ys, ts, unit) <-> ys = window nys nye /\ in_array r g ts /\ unit = "K".
Proof.
  intros I. apply temp_table in I. destruct I as [P [C [D [T R]]]]. apply plain_spec in P. destruct P as [P1 [P2 P3]].
  unfold get_variable_timeseries. cbv zeta. rewrite P1, P2, P3, C, D, T, R, <- indices_window. unfold in_array. split.
  - intros H. dbind H. inversion H; subst. apply array_at_spec in E. auto.
  - intros [-> [H ->]]. rewrite (proj2 (array_at_spec _ _ _) H). reflexivity.
Qed.
Lemma c72_heat_content nys nye r u v g ys ts unit : In (v, g) heat_content_variables ->
  get_variable_timeseries nys nye r v u = Ok (ys, ts, unit) <->
  ys = window nys nye /\ unit = "ZJ" /\ exists l, in_array r g l /\ ts = map (fun x => nmul x (nofZ 10)) l.
Proof.
  intros I. apply ohc_table in I. destruct I as [P [C [D [T R]]]]. apply plain_spec in P. destruct P as [P1 [P2 P3]].
  unfold get_variable_timeseries. cbv zeta. rewrite P1, P2, P3, C, D, T, R, <- indices_window. unfold in_array, from_ohc. split.
  - intros H. dbind H. dbind E. inversion E; inversion H; subst. apply array_at_spec in E0. split; [reflexivity|]. split; [reflexivity|]. exists v1. auto.
  - intros [-> [-> [l [H ->]]]]. rewrite (proj2 (array_at_spec _ _ _) H). reflexivity.
Qed.
Lemma c72_heat_uptake nys nye r u ys ts unit :
  get_variable_timeseries nys nye r "Heat Uptake" u = Ok (ys, ts, unit) <->
  ys = window nys nye /\ unit = "ZJ / yr" /\ exists l, in_array r "RIB_glob" l /\ ts = map rib_to_zj l.
Proof.
  unfold get_variable_timeseries. cbv zeta.
  replace (contains "Concentration" "Heat Uptake") with false by (vm_compute; reflexivity).
  replace (contains "Emissions" "Heat Uptake") with false by (vm_compute; reflexivity).
  replace (contains "Forcing" "Heat Uptake") with false by (vm_compute; reflexivity).
  replace (dget carbon_cycle_outputs "Heat Uptake") with (@None string) by (vm_compute; reflexivity).
  replace (dget variable_dict "Heat Uptake") with (Some "RIB_glob") by (vm_compute; reflexivity).
  change (smem "RIB_glob" temp_list) with true. change (String.eqb "RIB_glob" "RIB_glob") with true. rewrite <- indices_window. unfold in_array. cbv iota. split.
  - intros H. dbind H. inversion H; subst. apply array_at_spec in E. split; [reflexivity|]. split; [reflexivity|]. exists v; auto.
  - intros [-> [-> [l [H ->]]]]. rewrite (proj2 (array_at_spec _ _ _) H). reflexivity.
Qed.
Lemma c72_unknown nys nye r u v : ~ In v published -> get_variable_timeseries nys nye r v u = Ok ([], [], "NoUnit").
Proof.
  intros H. unfold get_variable_timeseries. cbv zeta.
  destruct (dget variable_dict v) eqn:D; [exfalso; apply H, all_published; left; congruence|].
  destruct (dget carbon_cycle_outputs v) eqn:C; [exfalso; apply H, all_published; right; congruence|].
  destruct (contains "Concentration" v); [reflexivity|]. destruct (contains "Emissions" v); [reflexivity|]. destruct (contains "Forcing" v); reflexivity.
Qed.
End Any.
