(** * P_Input2: readers, unit checks and keys (C55, C56, C58, C59, C80) *)
From Coq Require Import Sorted Lia.
From Verif Require Import PyBase PyBaseFacts Num M_Utils M_Gas M_Input Spec_Input P_Pams P_Input.

(** ** unknown inputs *)
Fixpoint sapp_nil (s : string) : (s ++ "")%string = s := match s with EmptyString => eq_refl | String a r => f_equal (String a) (sapp_nil r) end.
Lemma slen_app a b : String.length (a ++ b) = String.length a + String.length b.
Proof. induction a; cbn; [reflexivity | now rewrite IHa]. Qed.
Lemma substring0 a : forall b, substring 0 (String.length a) (a ++ b) = a.
Proof. induction a; intros b; cbn; [now destruct b | now rewrite IHa]. Qed.
Definition strip (n : nat) (s : string) : string := substring 0 (String.length s - n) s.
Lemma strip_app w s : strip (String.length s) (w ++ s) = w.
Proof. unfold strip. rewrite slen_app. replace (String.length w + String.length s - String.length s) with (String.length w) by lia. apply substring0. Qed.

Section Keys.
Context {A : Type} (exists_ : cval A -> bool) (gas_table : datum A -> result (dict (gasrow A)))
  (header : cval A -> result (dict string)) (default_data_dir cwd : string) (cfg : dict pyval) (W : wf cfg) (h : hcfg A).
Hypothesis OK : input_init exists_ gas_table header default_data_dir cwd cfg = Ok h.

Lemma known_only k : known_key k = false -> dget h k = None.
Proof.
  intros K. destruct (before_check exists_ gas_table header default_data_dir cwd cfg W h OK) as (h3 & years & E4 & _ & _ & _ & G).
  assert (forall x, smem x all_keys = true -> k <> x) as NE by (intros x X ->; rewrite known_smem, X in K; discriminate).
  pose proof (check_files_get exists_ cwd h3 h E4 k) as X. rewrite G in X by (apply NE; reflexivity). unfold with_defaults in X.
  rewrite !(fun x H => proj2 (String.eqb_neq k x) (NE x H)) in X by reflexivity. cbn [andb orb] in X.
  rewrite init_not in X by assumption. destruct (sunvolc_on cfg); exact X.
Qed.
Lemma c55_unknown what : dget (spec_methods cfg) what = None -> get_data h what = Err (KeyError what).
Proof.
  intros M. assert (forall s, s = "_file" \/ s = "_data" -> known_key (what ++ s) = false) as K.
  { intros s E. destruct (known_key (what ++ s)) eqn:K; [|reflexivity]. exfalso. rewrite known_smem in K. apply smem_In in K.
    assert (what = strip 5 (what ++ s)) as R by (destruct E as [->| ->]; symmetry; exact (strip_app what _)).
    revert M. rewrite R. remember (what ++ s)%string as k eqn:EK. rewrite R in EK. clear R.
    destruct E as [->| ->];
    (repeat (destruct K as [<-|K]; [vm_compute in EK |- *; discriminate|])); destruct K. }
  unfold get_data. rewrite !known_only by (apply K; tauto). reflexivity.
Qed.
End Keys.
Lemma c55_known_only {A} exists_ gas_table header dir cwd cfg : wf cfg ->
  @input_init A exists_ gas_table header dir cwd (filter (fun kv => known_key (fst kv)) cfg) = input_init exists_ gas_table header dir cwd cfg.
Proof. intros W. unfold input_init, initial_cfg. now rewrite cut_known. Qed.
(** a missing file *)
Lemma c58_missing {A} exists_ gas_table header dir cwd cfg : wf cfg -> forall what p,
  In what ["forc"; "gaspam"; "concentrations"; "emissions"; "perturb_em"; "perturb_forc"; "rf_luc"; "rf_sun"; "rf_volc_n"; "rf_volc_s"] ->
  dget cfg (what ++ "_file") = Some p -> exists_ (CV p) = false -> forall h : hcfg A, input_init exists_ gas_table header dir cwd cfg <> Ok h.
Proof.
  intros W what p I P EX h OK.
  assert (exists m, dget (spec_methods cfg) what = Some m) as [m M].
  { repeat (destruct I as [<-|I]; [eexists; reflexivity|]). destruct I. }
  assert (get_data h what = Err (KeyError what) \/ exists d, get_data h what = Ok d /\ source exists_ gas_table dir cwd cfg what m d) as X.
  { destruct (select exists_ gas_table header dir cwd cfg W h OK what m M) as [(d & E & S)|[E _]]; [right; eauto | now left]. }
  destruct (select exists_ gas_table header dir cwd cfg W h OK what m M) as [(d & E & S)|[_ NS]].
  - apply source_tag in S. unfold tag in S. rewrite P in S. destruct S as (q & q' & Q & R & _). injection Q as <-.
    unfold file_read in R. rewrite EX in R. destruct R as (c & -> & IC & _). cbn in IC. destruct IC as [<-|[<-|[]]];
    (repeat (destruct I as [I|I]; [discriminate|])); destruct I.
  - destruct NS as [NS _]. apply not_given in NS as [NS _]. congruence.
Qed.

(** with everything before the check in order, the error is FileNotFoundError *)
Lemma defaults_ok {A} dir cfg years : wf cfg -> run_years_of cfg years -> exists h1, @set_sun_volc_luc_defaults A dir (initial_cfg cfg) = Ok h1.
Proof.
  intros W (a & b & IA & IB & _). unfold set_sun_volc_luc_defaults. cbv zeta.
  set (i0 := @initial_cfg A cfg).
  set (h0' := if negb (dmem i0 "rf_luc_file") && negb (dmem i0 "rf_luc_data") then dset i0 "rf_luc_file" (path dir "IPCC_LUCalbedo.txt") else i0).
  assert (forall k, k <> "rf_luc_file" -> dget h0' k = dget (@initial_cfg A cfg) k) as G.
  { intros k NE. unfold h0'. destruct (negb (dmem i0 "rf_luc_file") && negb (dmem i0 "rf_luc_data")); [|reflexivity]. apply dget_dset_neq. now intros <-. }
  destruct (match dget h0' "sunvolc" with Some (CV v) => py_eqb v (VInt 1) | _ => false end); [eexists; reflexivity|].
  unfold start_of, stop_of. rewrite !G by discriminate. rewrite init_start, init_stop by exact W. cbn [cv]. rewrite IA, IB. eexists. reflexivity.
Qed.
Lemma c58_error {A} exists_ gas_table header dir cwd cfg : wf cfg -> forall what p years,
  In what ["forc"; "gaspam"; "concentrations"; "emissions"; "perturb_em"; "perturb_forc"; "rf_luc"; "rf_sun"; "rf_volc_n"; "rf_volc_s"] ->
  dget cfg (what ++ "_file") = Some p -> exists_ (CV p) = false ->
  run_years_of cfg years -> given cfg "gaspam" = false \/ (given cfg "nat_ch4" = true /\ given cfg "nat_n2o" = true) ->
  @input_init A exists_ gas_table header dir cwd cfg = Err FileNotFoundError.
Proof.
  intros W what p years I P EX Y NAT. destruct (defaults_ok (A:=A) dir cfg years W Y) as [h1 E1]. unfold input_init. rewrite E1. cbn [rbind].
  destruct (defaults_get (dir) cfg W h1 E1) as (years' & _ & G).
  assert (forall c, In c ["gaspam"; "nat_ch4"; "nat_n2o"] -> optional_pam h1 c = given cfg c) as OPT.
  { intros c IC. apply opt_given; (rewrite G; repeat (destruct IC as [<-|IC]; [unfold with_defaults; eqbs; cbn [andb orb]; rewrite h0_used by (exact W || reflexivity); destruct (sunvolc_on cfg); reflexivity|]); destruct IC). }
  assert (forall c C, c = "nat_ch4" \/ c = "nat_n2o" -> fill_natural gas_table h1 c C = Ok h1) as FILL.
  { intros c C EC. unfold fill_natural. assert (In c ["gaspam"; "nat_ch4"; "nat_n2o"]) as IC by (destruct EC as [->| ->]; [right; now left | right; right; now left]).
    rewrite (OPT c IC), (OPT "gaspam") by now left. destruct NAT as [->|[N1 N2]]; [now rewrite Bool.andb_false_r|]. destruct EC as [->| ->]; [now rewrite N1 | now rewrite N2]. }
  rewrite !FILL by tauto. cbn [rbind]. rewrite FILL by tauto. cbn [rbind].
  destruct (check_files_ok exists_ cwd h1) as [[-> _]|(h' & _ & X)]; [reflexivity|]. exfalso.
  assert (dget h1 (what ++ "_file") = Some (CV p)) as D.
  { rewrite G. repeat (destruct I as [<-|I]; [unfold with_defaults; cbn [append] in *; eqbs; cbn [andb orb];
      rewrite ?(given_file cfg "rf_luc" p P), ?(given_file cfg "rf_sun" p P), ?(given_file cfg "rf_volc_n" p P), ?(given_file cfg "rf_volc_s" p P); cbn [negb andb];
      rewrite ?Bool.andb_false_r; rewrite h0_used by (exact W || reflexivity); rewrite P; destruct (sunvolc_on cfg); reflexivity|]). destruct I. }
  enough (exists_ (CV p) = true) by congruence. apply (X (what ++ "_file")%string); [now apply dget_Some_In | | |];
  repeat (destruct I as [<-|I]; [first [reflexivity | discriminate]|]); destruct I.
Qed.

(** ** rows of years *)
Lemma nth_error_same {R} (l : list R) : forall l', (forall i, nth_error l i = nth_error l' i) -> l = l'.
Proof.
  induction l as [|x l IH]; intros [|y l'] E; [reflexivity | discriminate (E 0) | discriminate (E 0) |].
  pose proof (E 0) as E0. injection E0 as <-. f_equal. apply IH. intros i. exact (E (S i)).
Qed.
Lemma zrange_length a n : List.length (zrange a n) = n.
Proof. unfold zrange. now rewrite map_length, seq_length. Qed.
Lemma zrange_In a n y : In y (zrange a n) <-> (a <= y < a + Z.of_nat n)%Z.
Proof.
  unfold zrange. rewrite in_map_iff. split.
  - intros (i & <- & I). apply in_seq in I. lia.
  - intros B. exists (Z.to_nat (y - a)). split; [lia|]. apply in_seq. lia.
Qed.
Lemma c56_rows {R} (a b : Z) (rows : list R) : (a <= b)%Z ->
  let offset := Z.to_nat (Z.max a 1750 - 1750) in
  (forall r, read_data_on_year_row a b rows = Ok r <->
     (offset + Z.to_nat (b - a) < List.length rows)%nat /\ List.length r = Z.to_nat (b - a + 1) /\
     forall i, (i < List.length r)%nat -> nth_error r i = nth_error rows (offset + i)) /\
  (forall e, read_data_on_year_row a b rows = Err e -> e = ValueError).
Proof.
  intros L offset. unfold read_data_on_year_row, year_count. set (n := Z.to_nat (b + 1 - a)).
  assert (forall x, (if (1750 <? a)%Z then skipn (Z.to_nat (a - 1750)) rows else rows) = x -> x = skipn offset rows) as OF.
  { intros x <-. unfold offset. destruct (Z.ltb_spec 1750 a); [now rewrite Z.max_l by lia|]. rewrite Z.max_r by lia. reflexivity. }
  rewrite (OF _ eq_refl). assert (forall i, nth_error (skipn offset rows) i = nth_error rows (offset + i)) as NS.
  { clear. revert rows. induction offset as [|k IH]; intros rows i; [reflexivity|]. destruct rows; [now destruct i|]. cbn. apply IH. }
  assert (List.length (skipn offset rows) = List.length rows - offset) as LS by apply skipn_length.
  destruct (skipn offset rows) as [|x rest] eqn:SK.
  - split; [|congruence]. intros r. split; [discriminate|]. intros (B & _). cbn in LS. lia.
  - rewrite <- SK in *. clear x rest SK. set (rest := skipn offset rows) in *. split.
    2: { intros e. destruct (Nat.eqb (List.length (firstn n rest)) n); congruence. }
    intros r. destruct (Nat.eqb_spec (List.length (firstn n rest)) n) as [E|E]; rewrite firstn_length in E.
    + split.
      * intros X. injection X as <-. rewrite firstn_length. split; [lia|]. split; [lia|]. intros i I. rewrite <- NS.
        rewrite <- (firstn_skipn n rest) at 2. rewrite nth_error_app1 by (rewrite firstn_length; lia). reflexivity.
      * intros (B & LR & X). f_equal. apply nth_error_same. intros i.
        destruct (Nat.lt_ge_cases i (List.length r)).
        -- rewrite X by assumption. rewrite <- NS. rewrite <- (firstn_skipn n rest) at 2. rewrite nth_error_app1 by (rewrite firstn_length; lia). reflexivity.
        -- rewrite (proj2 (nth_error_None r i)) by lia. apply nth_error_None. rewrite firstn_length. lia.
    + split; [discriminate|]. intros (B & _ & _). lia.
Qed.

(** ** cutting to the run window *)
Lemma last_max l d : ascending l -> forall y, In y l -> (y <= last l d)%Z.
Proof.
  induction l as [|a l IH]; intros S y I; [destruct I|]. inversion S as [|? ? S' F]; subst. destruct l as [|b l]; [cbn; destruct I as [<-|[]]; lia|].
  change (last (a :: b :: l) d) with (last (b :: l) d). destruct I as [<-|I]; [|now apply IH].
  rewrite Forall_forall in F. specialize (F b (or_introl eq_refl)). specialize (IH S' b (or_introl eq_refl)). lia.
Qed.
Lemma c58_cut {R} (ys ye : Z) (df : list (Z * R)) first rest : df = first :: rest -> ascending (map fst df) ->
  let present y := In y (map fst df) in
  (forall r, cut_years ys ye df = Ok r <->
     (forall y, (fst first <= y < ys)%Z \/ (ye < y <= last (map fst df) 0%Z)%Z -> present y) /\
     r = filter (fun row => ((ys <=? fst row) && (fst row <=? ye))%Z) df) /\
  (forall e, cut_years ys ye df = Err e -> e = KeyError "year").
Proof.
  intros DF S present. unfold cut_years. rewrite DF. destruct first as [a x]. cbn [fst]. rewrite <- DF.
  set (mx := last (map fst df) 0%Z).
  set (cut := zrange a (Z.to_nat (ys - a)) ++ zrange (ye + 1) (Z.to_nat (mx + 1 - (ye + 1)))).
  assert (forall y, In y cut <-> (a <= y < ys)%Z \/ (ye < y <= mx)%Z) as CUT by (intros y; unfold cut; rewrite in_app_iff, !zrange_In; lia).
  assert (forall y l, existsb (Z.eqb y) l = true <-> In y l) as EX.
  { intros y l. rewrite existsb_exists. split; [intros (z & I & E); apply Z.eqb_eq in E; now subst | intros I; exists y; split; [exact I | apply Z.eqb_refl]]. }
  split.
  - intros r. destruct (forallb (fun y => existsb (Z.eqb y) (map fst df)) cut) eqn:F.
    + rewrite forallb_forall in F. assert (filter (fun r => negb (existsb (Z.eqb (fst r)) cut)) df = filter (fun row => ((ys <=? fst row) && (fst row <=? ye))%Z) df) as FE.
      { apply filter_ext_in. intros row I. assert (a <= fst row <= mx)%Z as B.
        { split; [|apply (last_max _ 0%Z S), in_map, I]. rewrite DF in I, S. cbn in S. inversion S as [|? ? S' FA]; subst. destruct I as [<-|I]; [cbn; lia|].
          rewrite Forall_forall in FA. specialize (FA (fst row) (in_map fst _ _ I)). lia. }
        destruct (existsb (Z.eqb (fst row)) cut) eqn:E; cbn [negb].
        - apply EX, CUT in E. symmetry. apply Bool.andb_false_iff. destruct E; [left; apply Z.leb_gt; lia | right; apply Z.leb_gt; lia].
        - symmetry. apply andb_true_intro. assert (~ In (fst row) cut) as NI by (intros X; apply EX in X; congruence). rewrite CUT in NI.
          split; apply Z.leb_le; lia. }
      rewrite FE. split; [intros X; injection X as <-; split; [intros y B; apply EX, F, CUT, B | reflexivity] | intros [_ ->]; reflexivity].
    + split; [discriminate|]. intros [P _]. exfalso. assert (forallb (fun y => existsb (Z.eqb y) (map fst df)) cut = true) as F'; [|congruence].
      apply forallb_forall. intros y I. apply EX, P, CUT, I.
  - intros e. destruct (forallb _ cut); [discriminate|]. intros X. now injection X as <-.
Qed.
Lemma zrange_ascending a n : ascending (zrange a n).
Proof.
  unfold zrange, ascending. generalize 0 at 1 as k. induction n as [|n IH]; intros k; cbn; constructor; [apply IH|].
  apply Forall_forall. intros y I. apply in_map_iff in I as (i & <- & I). apply in_seq in I. lia.
Qed.
Lemma zrange_last a n d : last (zrange a (S n)) d = (a + Z.of_nat n)%Z.
Proof.
  unfold zrange. rewrite <- (Nat.add_1_r n), seq_app, map_app. cbn. apply last_last.
Qed.
Lemma c58_consecutive {R} (a : Z) (rows : list R) (ys ye : Z) : rows <> [] ->
  let df := combine (zrange a (List.length rows)) rows in
  (exists r, cut_years ys ye df = Ok r) <-> (ys <= a + Z.of_nat (List.length rows))%Z /\ (a - 1 <= ye)%Z.
Proof.
  intros NE df. assert (map fst df = zrange a (List.length rows)) as MF.
  { unfold df. assert (List.length (zrange a (List.length rows)) = List.length rows) as L by apply zrange_length. revert L. generalize (zrange a (List.length rows)) as l. clear.
    intros l. revert rows. induction l as [|y l IH]; intros rows L; [reflexivity|]. destruct rows; [discriminate|]. cbn. f_equal. apply IH. cbn in L. lia. }
  destruct rows as [|x rows]; [contradiction|]. set (n := List.length rows) in *. cbn [List.length] in *. fold n in MF |- *.
  assert (exists rest, df = (a, x) :: rest) as [rest D].
  { unfold df, zrange. cbn [List.length]. fold n. cbn [seq map combine]. rewrite Z.add_0_r. eexists; reflexivity. }
  destruct (c58_cut ys ye df (a, x) rest D) as [C _]; [rewrite MF; apply zrange_ascending|]. cbn [fst] in C. rewrite MF, zrange_last in C.
  split.
  - intros [r E]. apply C in E as [P _]. split.
    + destruct (Z.le_gt_cases ys (a + Z.of_nat (S n))); [assumption|]. specialize (P (a + Z.of_nat (S n))%Z). rewrite zrange_In in P. lia.
    + destruct (Z.le_gt_cases (a - 1) ye); [assumption|]. specialize (P (a - 1)%Z). rewrite zrange_In in P. lia.
  - intros [B1 B2]. eexists. apply C. split; [|reflexivity]. intros y B. apply zrange_In. lia.
Qed.

(** ** natural emissions *)
Lemma c80_read {A} (values : list A) c : 
  (forall f, read_natural_emissions values c 1750 2500 = Ok f <-> List.length values = 751 /\ f = {| fr_index := zrange 1750 751; fr_cols := [(c, values)] |}) /\
  (forall e, read_natural_emissions values c 1750 2500 = Err e -> e = ValueError).
Proof.
  unfold read_natural_emissions. change (Z.to_nat (2500 + 1 - 1750)) with 751. rewrite zrange_length.
  destruct (Nat.eqb_spec (List.length values) 751) as [E|E].
  - split; [|discriminate]. intros f. split; [intros X; injection X as <-; now split | intros [_ ->]; reflexivity].
  - split; [|congruence]. intros f. split; [discriminate | intros [X _]; contradiction].
Qed.
Lemma yget_zrange {V} (l : list V) a : forall i, yget (combine (zrange a (List.length l)) l) (a + Z.of_nat i) = nth_error l i.
Proof.
  unfold zrange. assert (forall k i, yget (combine (map (fun j => (a + Z.of_nat j)%Z) (seq k (List.length l))) l) (a + Z.of_nat (k + i)) = nth_error l i) as X.
  { induction l as [|x l IH]; intros k i; cbn [List.length seq map combine yget]; [now destruct i|].
    destruct (Z.eqb_spec (a + Z.of_nat k) (a + Z.of_nat (k + i))) as [E|E].
    - assert (i = 0) as -> by lia. reflexivity.
    - destruct i as [|i]; [lia|]. replace (k + S i) with (S k + i) by lia. apply IH. }
  intros i. exact (X 0 i).
Qed.
Lemma c80_year {A} (values : list A) c f i : read_natural_emissions values c 1750 2500 = Ok f -> (i < 751)%nat ->
  exists x, nth_error values i = Some x /\ fr_get f c (1750 + Z.of_nat i) = Ok x.
Proof.
  intros E I. apply (proj1 (c80_read values c)) in E as [L ->]. destruct (nth_error values i) as [x|] eqn:N; [|apply nth_error_None in N; lia].
  exists x. split; [reflexivity|]. unfold fr_get, fr_col. cbn [fr_cols fr_index dget]. rewrite String.eqb_refl. cbn [key rbind]. rewrite <- L, yget_zrange, N. reflexivity.
Qed.
