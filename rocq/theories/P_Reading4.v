(** * P_Reading4: an object in the place of a file (C103) *)
From Coq Require Import Lia.
From Verif Require Import PyBase PyBaseFacts Num M_Utils M_Pams M_Gas M_Driver M_Input M_Whole M_WholeBox M_Reading Spec_Pams Spec_Input Spec_Reading P_Pams P_Input P_Input2 P_Reading.

(** ** keys *)
Lemma file_inj w w' : (w ++ "_file")%string = (w' ++ "_file")%string -> w = w'.
Proof. intros E. rewrite <- (strip_app w "_file"), E. apply strip_app. Qed.
Lemma data_inj w w' : (w ++ "_data")%string = (w' ++ "_data")%string -> w = w'.
Proof. intros E. rewrite <- (strip_app w "_data"), E. apply strip_app. Qed.
Lemma file_data w w' : (w ++ "_file")%string <> (w' ++ "_data")%string.
Proof.
  intros E. assert (w = w') as <-.
  { pose proof (strip_app w "_file") as X. cbn [String.length] in X. rewrite <- X, E. exact (strip_app w' "_data"). }
  induction w as [|a w IH]; [discriminate|]. injection E as E. exact (IH E).
Qed.
Lemma filter_dset {V} (P : string -> bool) (d : dict V) k v : P k = false -> filter (fun kv => P (fst kv)) (dset d k v) = filter (fun kv => P (fst kv)) d.
Proof.
  intros E. induction d as [|[k' w] d IH]; cbn [dset filter fst]; [now rewrite E|]. destruct (String.eqb_spec k' k) as [->|NE]; cbn [filter fst]; [now rewrite E|]. now rewrite IH.
Qed.
Lemma filter_ddel {V} (P : string -> bool) (d : dict V) k : P k = false -> filter (fun kv => P (fst kv)) (ddel d k) = filter (fun kv => P (fst kv)) d.
Proof.
  intros E. induction d as [|[k' w] d IH]; [reflexivity|]. unfold ddel in *. cbn [filter fst]. destruct (String.eqb_spec k' k) as [->|NE]; cbn [negb filter fst]; [now rewrite E|]. now rewrite IH.
Qed.
Lemma filter_dupdate {V} (P : string -> bool) (e d : dict V) : (forall k, In k (dkeys e) -> P k = false) -> filter (fun kv => P (fst kv)) (dupdate d e) = filter (fun kv => P (fst kv)) d.
Proof.
  unfold dupdate. revert d. induction e as [|[k v] e IH]; intros d F; [reflexivity|]. cbn [fold_left fst snd]. rewrite IH by (intros x I; apply F; now right). apply filter_dset, F. now left.
Qed.

(** ** the configuration with the object *)
Definition inputs12 : list string := ["forc"; "gaspam"; "nat_ch4"; "nat_n2o"; "concentrations"; "emissions"; "perturb_em"; "perturb_forc"; "rf_luc"; "rf_sun"; "rf_volc_n"; "rf_volc_s"].
Lemma methods_12 cfg what m : dget (spec_methods cfg) what = Some m -> In what inputs12.
Proof. intros M. apply dget_Some_In, (in_map fst) in M. exact M. Qed.
Ltac twelve I := repeat (destruct I as [<-|I]; [| ]); [.. | destruct I].
Section Config.
Variables (cfg : dict pyval) (what : string) (v p : pyval).
Hypothesis W : wf cfg.
Hypothesis I12 : In what inputs12.
Hypothesis P : dget cfg (what ++ "_file") = Some p.
Let cfg' := with_object cfg what v.
Lemma with_wf : wf cfg'.
Proof. unfold cfg', with_object. now apply wf_dset, wf_ddel. Qed.
Lemma with_file : dget cfg' (what ++ "_file") = None.
Proof. unfold cfg', with_object. rewrite dget_dset_neq by (intros E; symmetry in E; exact (file_data _ _ E)). rewrite dget_ddel by exact W. now rewrite String.eqb_refl. Qed.
Lemma with_data : dget cfg' (what ++ "_data") = Some v.
Proof. apply dget_dset_eq. Qed.
Lemma with_other k : k <> (what ++ "_file")%string -> k <> (what ++ "_data")%string -> dget cfg' k = dget cfg k.
Proof.
  intros N1 N2. unfold cfg', with_object. rewrite dget_dset_neq by congruence. rewrite dget_ddel by exact W. destruct (String.eqb_spec (what ++ "_file") k); [congruence | reflexivity].
Qed.
Lemma with_given w : given cfg' w = given cfg w.
Proof.
  unfold given, dmem. destruct (string_dec w what) as [->|NE].
  - now rewrite with_file, with_data, P.
  - rewrite !with_other; [reflexivity | intros E; symmetry in E; exact (file_data _ _ E) | intros E; apply NE; now apply data_inj | intros E; apply NE; now apply file_inj | apply file_data].
Qed.
Lemma with_filter (Q : string -> bool) : Q (what ++ "_file")%string = false -> Q (what ++ "_data")%string = false ->
  filter (fun kv => Q (fst kv)) cfg' = filter (fun kv => Q (fst kv)) cfg.
Proof. intros Q1 Q2. unfold cfg', with_object. rewrite (filter_dset Q), (filter_ddel Q) by assumption. reflexivity. Qed.
Lemma with_driver_cfg : driver_cfg cfg' = driver_cfg cfg.
Proof.
  unfold driver_cfg, cut_and_check_pamset. f_equal. rewrite !cut_filter by (exact W || exact with_wf).
  match goal with |- filter (fun kv => dmem ?r _) _ = _ => apply (with_filter (dmem r)) end; pose proof I12 as J; clear - J; repeat (destruct J as [<-|J]; [reflexivity|]); destruct J.
Qed.
Lemma fold_filter {S} (Q : string -> bool) (f : S -> string * pyval -> S) l : forall s,
  fold_left (fun d kv => if Q (fst kv) then f d kv else d) l s = fold_left f (filter (fun kv => Q (fst kv)) l) s.
Proof. induction l as [|x l IH]; intros s; [reflexivity|]. cbn [fold_left filter]. destruct (Q (fst x)); cbn [fold_left]; apply IH. Qed.
Lemma driver_keys c k : wf c -> In k (dkeys (driver_cfg c)) -> smem k ["rs_function"; "rb_function"] = false.
Proof.
  intros WC I. apply dget_In_keys in I. unfold dmem, driver_cfg in I. rewrite cut_and_check_get in I by (try exact WC; now apply wf_lit). unfold spec_completed in I.
  destruct (smem k ["rs_function"; "rb_function"]) eqn:S; [|reflexivity]. apply smem_In in S. destruct S as [<-|[<-|[]]];
  (match type of I with context [dget driver_required ?k] => change (dget driver_required k) with (@None pyval) in I; change (dmem driver_used k) with false in I end); destruct (dget c _); discriminate.
Qed.
Lemma with_emiconc : driver_emiconc cfg' = driver_emiconc cfg.
Proof.
  unfold driver_emiconc. rewrite with_driver_cfg. cbv zeta.
  rewrite !(fold_filter (fun k => smem k ["rs_function"; "rb_function"]) (fun d kv => dset d (fst kv) (snd kv))). f_equal.
  unfold driver_caller_cfg. rewrite with_driver_cfg. rewrite !(filter_dupdate (fun k => smem k ["rs_function"; "rb_function"])) by (intros k; apply driver_keys; exact W).
  apply (with_filter (fun k => smem k ["rs_function"; "rb_function"])); pose proof I12 as J; clear - J; repeat (destruct J as [<-|J]; [reflexivity|]); destruct J.
Qed.
Lemma with_build {A} {N : Num A} number float_of x : model_build number float_of cfg' x = @model_build A N number float_of cfg x.
Proof.
  unfold model_build, build_box, build, driver_carbon, driver_carbon_class, driver_thermal. rewrite with_driver_cfg, with_emiconc. reflexivity.
Qed.
End Config.

(** ** the handler's configuration *)
Section Defaults.
Context {A : Type} (dir : string).
Lemma initial_wf (c : dict pyval) : wf (@initial_cfg A c).
Proof.
  unfold initial_cfg, wf, dkeys. rewrite map_map. cbn [fst]. change (NoDup (dkeys (cut_and_check_pamset required_keys c used_keys))). apply cut_and_check_wf.
Qed.
Lemma defaults_wf (h h1 : hcfg A) : wf h -> set_sun_volc_luc_defaults dir h = Ok h1 -> wf h1.
Proof.
  intros WH. unfold set_sun_volc_luc_defaults. cbv zeta.
  set (h0' := if negb (dmem h "rf_luc_file") && negb (dmem h "rf_luc_data") then dset h "rf_luc_file" (path dir "IPCC_LUCalbedo.txt") else h).
  assert (wf h0') as W0 by (unfold h0'; destruct (negb (dmem h "rf_luc_file") && negb (dmem h "rf_luc_data")); [now apply wf_dset | exact WH]).
  destruct (match dget h0' "sunvolc" with Some (CV v) => py_eqb v (VInt 1) | _ => false end).
  - set (h1' := if negb (dmem h0' "rf_sun_file") && negb (dmem h0' "rf_sun_data") then dset h0' "rf_sun_file" (path dir "solar_IPCC.txt") else h0').
    assert (wf h1') as W1 by (unfold h1'; destruct (negb (dmem h0' "rf_sun_file") && negb (dmem h0' "rf_sun_data")); [now apply wf_dset | exact W0]).
    intros E. apply (f_equal (fun r => match r with Ok x => x | Err _ => h1 end)) in E. rewrite <- E.
    clearbody h1'. destruct (negb (existsb _ _)); [now apply wf_dset, wf_dset|]. destruct (dget h1' "rf_volc_file"); [now apply wf_dset, wf_dset|]. destruct (dget h1' "rf_volc_data"); [now apply wf_dset, wf_dset | exact W1].
  - destruct (int_of (start_of h0')); [|discriminate]. cbn [rbind]. destruct (int_of (stop_of h0')); [|discriminate]. cbn [rbind].
    intros E. injection E as <-. now apply wf_dset, wf_dset, wf_dset.
Qed.
Lemma defaults_on (c : dict pyval) : wf c -> sunvolc_on c = true -> exists h1 : hcfg A, set_sun_volc_luc_defaults dir (initial_cfg c) = Ok h1.
Proof.
  intros W ON. unfold set_sun_volc_luc_defaults. cbv zeta. set (h0' := if negb (dmem (initial_cfg c) "rf_luc_file") && negb (dmem (initial_cfg c) "rf_luc_data") then dset (initial_cfg c) "rf_luc_file" (path dir "IPCC_LUCalbedo.txt") else initial_cfg c).
  assert (match dget h0' "sunvolc" with Some (CV v) => py_eqb v (VInt 1) | _ => false end = true) as ->; [|eexists; reflexivity].
  assert (dget h0' "sunvolc" = option_map CV (dget c "sunvolc")) as ->.
  { unfold h0'. destruct (_ && _); [rewrite dget_dset_neq by discriminate|]; now apply init_used. }
  unfold sunvolc_on in ON. destruct (dget c "sunvolc"); [exact ON | discriminate].
Qed.
End Defaults.
Lemma run_years_unique c l l' : run_years_of c l -> run_years_of c l' -> l = l'.
Proof. intros (a & b & EA & EB & ->) (a' & b' & EA' & EB' & ->). rewrite EA in EA'. rewrite EB in EB'. injection EA' as <-. injection EB' as <-. reflexivity. Qed.

Section Sim.
Context {A : Type} {N : Num A}.
Variables (nan : A) (fs : files A) (object : pyval -> option (thing A)) (dir cwd : string).
Variables (what : string) (v : pyval).
Local Notation F := (what ++ "_file")%string.
Local Notation D := (what ++ "_data")%string.
Record sim (f : cval A) (h h' : hcfg A) : Prop := {
  si_f : dget h F = Some f; si_nf : dget h' F = None; si_d : dget h' D = Some (CV v);
  si_o : forall k, k <> F -> k <> D -> dget h' k = dget h k }.
Lemma sim_opt f h h' w : sim f h h' -> optional_pam h' w = optional_pam h w.
Proof.
  intros S. unfold optional_pam, dmem. destruct (string_dec w what) as [->|NE].
  - now rewrite (si_f _ _ _ S), (si_nf _ _ _ S), (si_d _ _ _ S).
  - rewrite !(si_o _ _ _ S); [reflexivity | intros E; symmetry in E; exact (file_data _ _ E) | intros E; apply NE; now apply data_inj | intros E; apply NE; now apply file_inj | apply file_data].
Qed.
Lemma sim_year f h h' k : sim f h h' -> In what inputs12 -> In k ["nystart"; "nyend"; "conc_run"] -> dget h' k = dget h k.
Proof.
  intros S I K. apply (si_o _ _ _ S); cbn in K; repeat (destruct K as [<-|K]); try destruct K; repeat (destruct I as [<-|I]; [discriminate|]); destruct I.
Qed.
Lemma sim_data f h h' w : sim f h h' -> In what inputs12 -> w <> what -> get_data h' w = get_data h w.
Proof.
  intros S I NE. unfold get_data, start_of, stop_of. rewrite (sim_year f h h' "nystart"), (sim_year f h h' "nyend") by (assumption || (cbn; tauto)).
  rewrite !(si_o _ _ _ S); [reflexivity | intros E; symmetry in E; exact (file_data _ _ E) | intros E; apply NE; now apply data_inj | intros E; apply NE; now apply file_inj | apply file_data].
Qed.
Lemma sim_get f h h' w t : sim f h h' -> In what inputs12 -> object v = Some t -> get nan fs object h what = Ok t -> get nan fs object h' w = get nan fs object h w.
Proof.
  intros S I OB G. destruct (string_dec w what) as [->|NE].
  - rewrite G. unfold get, get_data. rewrite (si_nf _ _ _ S), (si_d _ _ _ S). cbn [rbind content]. now rewrite OB.
  - unfold get. now rewrite (sim_data f h h').
Qed.
(** the gas table *)
Hypothesis I12 : In what inputs12.
Variable t : thing A.
Hypothesis OB : object v = Some t.
Lemma sim_gas {B} f h h' (k : dict (gasrow A) -> result B) : sim f h h' -> (what = "gaspam" -> content nan fs object (Read MComponents f) = Ok t) ->
  (do d <- get_data h' "gaspam"; do g <- gas_table nan fs object d; k g) = (do d <- get_data h "gaspam"; do g <- gas_table nan fs object d; k g).
Proof.
  intros S G. destruct (string_dec "gaspam" what) as [E|NE]; [|now rewrite (sim_data f h h')].
  unfold get_data. rewrite E, (si_nf _ _ _ S), (si_d _ _ _ S), (si_f _ _ _ S). rewrite <- E. change (dget (read_methods (start_of h) (stop_of h)) "gaspam") with (Some MComponents). cbn [rbind].
  assert (gas_table nan fs object (Given (CV v)) = gas_table nan fs object (Read MComponents f)) as ->; [|reflexivity].
  unfold gas_table, gas_content. rewrite G by now symmetry. cbn [content]. now rewrite OB.
Qed.
Lemma sim_fill f h h' n c h2 : sim f h h' -> wf h' -> (what = "gaspam" -> content nan fs object (Read MComponents f) = Ok t) ->
  fill_natural (gas_table nan fs object) h n c = Ok h2 -> exists h2', fill_natural (gas_table nan fs object) h' n c = Ok h2' /\ sim f h2 h2' /\ wf h2'.
Proof.
  intros S W' G. unfold fill_natural. rewrite !(sim_opt f h h') by exact S. destruct (negb (optional_pam h n) && optional_pam h "gaspam") eqn:C.
  - unfold get_flat_natural_emissions. unfold start_of, stop_of.
    assert (forall X, rbind (do d <- get_data h' "gaspam"; do g <- gas_table nan fs object d;
        do r <- key c (dget g c); do a <- int_of (cv (dget h' "nystart")); do b <- int_of (cv (dget h' "nyend")); Ok (CFlat (zrange a (year_count a b)) c (nat_em r))) X =
      @rbind _ (hcfg A) (do d <- get_data h "gaspam"; do g <- gas_table nan fs object d;
        do r <- key c (dget g c); do a <- int_of (cv (dget h "nystart")); do b <- int_of (cv (dget h "nyend")); Ok (CFlat (zrange a (year_count a b)) c (nat_em r))) X) as E.
    { intros X. rewrite (sim_gas f h h') by assumption. rewrite (sim_year f h h' "nystart"), (sim_year f h h' "nyend") by (assumption || (cbn; tauto)). reflexivity. }
    rewrite E. intros R. match type of R with rbind ?e _ = _ => destruct e as [fl|]; [|discriminate R] end. cbn [rbind] in R |- *. injection R as <-. eexists. split; [reflexivity|].
    assert (n <> what) as NE.
    { intros ->. unfold optional_pam, dmem in C. rewrite (si_f _ _ _ S) in C. discriminate. }
    split; [|now apply wf_dset]. constructor.
    + rewrite dget_dset_neq by (intros X; symmetry in X; exact (file_data _ _ X)). exact (si_f _ _ _ S).
    + rewrite dget_dset_neq by (intros X; symmetry in X; exact (file_data _ _ X)). exact (si_nf _ _ _ S).
    + rewrite dget_dset_neq by (intros X; apply NE; now apply data_inj). exact (si_d _ _ _ S).
    + intros k N1 N2. rewrite !dget_dset. destruct (String.eqb (n ++ "_data") k); [reflexivity|]. now apply (si_o _ _ _ S).
  - intros R. injection R as <-. exists h'. auto.
Qed.
Lemma sim_files f h h' h4 : sim f h h' -> wf h' -> check_inputfiles (fs_exists fs) cwd h = Ok h4 ->
  exists h4' f', check_inputfiles (fs_exists fs) cwd h' = Ok h4' /\ sim f' h4 h4' /\ redirected (fs_exists fs) cwd F f f'.
Proof.
  intros S W' C. assert (is_file_key D = false) as KD.
  { pose proof I12 as J. clear - J. repeat (destruct J as [<-|J]; [reflexivity|]). destruct J. }
  destruct (check_files_ok (fs_exists fs) cwd h') as [[E (k & w & I & K & X & N1 & N2)]|(h4' & E & _)].
  - exfalso. apply (wf_In_dget _ _ _ W') in I.
    assert (k <> F) as NF by (intros ->; rewrite (si_nf _ _ _ S) in I; discriminate). assert (k <> D) as ND by (intros ->; rewrite KD in K; discriminate).
    rewrite (si_o _ _ _ S k NF ND) in I. pose proof (check_files_get _ _ _ _ C k) as G. rewrite I in G. destruct G as (w' & _ & R). unfold redirected in R. rewrite K, X in R. cbn in R.
    destruct R as [[R _]|[R _]]; contradiction.
  - pose proof (check_files_get _ _ _ _ C) as G. pose proof (check_files_get _ _ _ _ E) as G'.
    pose proof (G F) as GF. rewrite (si_f _ _ _ S) in GF. destruct GF as (f' & GF & R). exists h4', f'. split; [exact E|]. split; [|exact R]. constructor.
    + exact GF.
    + specialize (G' F). now rewrite (si_nf _ _ _ S) in G'.
    + specialize (G' D). rewrite (si_d _ _ _ S) in G'. destruct G' as (w & G' & RD). unfold redirected in RD. rewrite KD in RD. cbn in RD. now subst w.
    + intros k N1 N2. specialize (G k). specialize (G' k). rewrite (si_o _ _ _ S k N1 N2) in G'. destruct (dget h k) as [w|]; [|congruence].
      destruct G as (w1 & G & R1), G' as (w2 & G' & R2). rewrite G, G'. f_equal. unfold redirected in R1, R2. destruct (is_file_key k && negb (fs_exists fs w)); [|congruence].
      destruct R1 as [[K1 ->]|[K1 ->]], R2 as [[K2 ->]|[K2 ->]]; try reflexivity; congruence.
Qed.
(** the unit checks *)
Lemma sim_units f h h' : sim f h h' -> (what = "gaspam" -> content nan fs object (Read MComponents f) = Ok t) ->
  (what = "emissions" -> forall d g, get_data h "gaspam" = Ok d -> gas_table nan fs object d = Ok g ->
     forall go, check_emissions (header fs) h (filter (fun kg => negb (smem (fst kg) no_emissions)) g) = Ok go -> go = true) ->
  check_gaspam (gas_table nan fs object) (header fs) h = Ok tt -> check_gaspam (gas_table nan fs object) (header fs) h' = Ok tt.
Proof.
  intros S G EM. unfold check_gaspam. rewrite (sim_opt f h h') by exact S. destruct (optional_pam h "gaspam"); [|trivial]. rewrite (sim_gas f h h') by assumption.
  destruct (get_data h "gaspam") as [d|] eqn:GD; [|trivial]. cbn [rbind]. destruct (gas_table nan fs object d) as [g|] eqn:GT; [|trivial]. cbn [rbind].
  destruct (mapM _ no_emissions); [|trivial]. cbn [rbind]. set (g' := filter _ g).
  assert (check_concentrations (header fs) h g' = Ok tt -> check_concentrations (header fs) h' g' = Ok tt) as CC.
  { unfold check_concentrations. destruct (string_dec what "concentrations") as [E|NE].
    - pose proof (si_nf _ _ _ S) as X. rewrite E in X. cbn [append] in X. rewrite X. trivial.
    - rewrite (si_o _ _ _ S "concentrations_file"); [trivial | intros E; apply NE; symmetry; now apply (file_inj "concentrations") | exact (file_data "concentrations" what)]. }
  destruct (string_dec what "emissions") as [E|NE].
  - intros C. assert (check_emissions (header fs) h' g' = Ok true) as ->.
    { unfold check_emissions. pose proof (si_nf _ _ _ S) as X. rewrite E in X. cbn [append] in X. now rewrite X. }
    cbn [rbind]. destruct (check_emissions (header fs) h g') as [go|] eqn:CE; [|discriminate]. cbn [rbind] in C. rewrite (EM E d g eq_refl GT go CE) in C. now apply CC.
  - assert (check_emissions (header fs) h' g' = check_emissions (header fs) h g') as ->.
    { unfold check_emissions. rewrite (si_o _ _ _ S "emissions_file"); [reflexivity | intros E; apply NE; symmetry; now apply (file_inj "emissions") | exact (file_data "emissions" what)]. }
    destruct (check_emissions (header fs) h g') as [go|]; [|trivial]. cbn [rbind]. destruct go; [exact CC | trivial].
Qed.
End Sim.

(** ** putting it together *)
Lemma dget_ddel_neq {V} (d : dict V) k k' : k <> k' -> dget (ddel d k) k' = dget d k'.
Proof.
  intros NE. induction d as [|[k0 x] d IH]; [reflexivity|]. cbn [ddel dget]. destruct (String.eqb_spec k0 k) as [->|N0].
  - destruct (String.eqb_spec k k'); [contradiction | reflexivity].
  - cbn [dget]. destruct (String.eqb k0 k'); [reflexivity | exact IH].
Qed.
Section Chain.
Context {A : Type} {N : Num A}.
Variables (nan : A) (fs : files A) (object : pyval -> option (thing A)) (dir cwd : string).
Variables (C C' : dict pyval) (what : string) (v p : pyval) (t : thing A) (h : hcfg A).
Hypothesis I12 : In what inputs12.
Hypothesis OB : object v = Some t.
Hypothesis SD : forall h1 : hcfg A, set_sun_volc_luc_defaults dir (initial_cfg C) = Ok h1 ->
  exists h1', set_sun_volc_luc_defaults dir (initial_cfg C') = Ok h1' /\ sim what v (CV p) h1 h1' /\ wf h1'.
Hypothesis GC : what = "gaspam" -> fs_exists fs (CV p) = true -> content nan fs object (Read MComponents (CV p)) = Ok t.
Hypothesis EM : what = "emissions" -> forall d gl f k, get_data h "gaspam" = Ok d -> content nan fs object d = Ok (TGas gl) -> fs_years fs (CV p) = Ok f ->
  In k (dkeys gl) -> ~ In k no_em -> k <> "CO2.1" /\ exists u, In (k, u) (combine (yf_names f) (yf_units f)).
Lemma not_redirected f k : redirected (fs_exists fs) cwd k (CV p) f -> is_file_key k = true -> k <> "nat_ch4_file" -> k <> "nat_n2o_file" -> fs_exists fs (CV p) = true /\ f = CV p.
Proof. intros R K N1 N2. unfold redirected in R. rewrite K in R. destruct (fs_exists fs (CV p)); cbn [andb negb] in R; [auto|]. destruct R as [[R _]|[R _]]; contradiction. Qed.
Lemma listed_checked (h4 : hcfg A) g d : get_data h "gaspam" = Ok d -> gas_table nan fs object d = Ok g -> what = "emissions" -> dget h4 "emissions_file" = Some (CV p) ->
  forall go, check_emissions (header fs) h4 (filter (fun kg => negb (smem (fst kg) no_emissions)) g) = Ok go -> go = true.
Proof.
  intros GD GT EE SF go CE. unfold check_emissions in CE. rewrite SF in CE.
  unfold header in CE. destruct (fs_years fs (CV p)) as [yf|] eqn:FY; [|discriminate]. cbn [rbind] in CE. destruct (dget (combine (yf_names yf) (yf_units yf)) "CO2.1"); [|discriminate]. cbn [key rbind] in CE.
  match type of CE with (if negb ?b then _ else _) = _ => assert (b = true) as FB end.
  { apply forallb_forall. intros k K. unfold gas_table, gas_content in GT. destruct (content nan fs object d) as [tt0|] eqn:CT; [|discriminate]. cbn [rbind] in GT. destruct tt0 as [|gl| | |]; try discriminate. cbn [rbind] in GT. injection GT as <-.
    unfold dkeys in K. apply in_map_iff in K as ([k' row] & EK & K). cbn in EK. subst k'. apply filter_In in K as [K NE]. cbn [fst] in NE.
    assert (In k (dkeys gl)) as KG.
    { unfold gas_rows in K. apply in_map_iff in K as ([k' l] & EK & K). cbn in EK. injection EK as -> _. now apply (in_map fst) in K. }
    destruct (EM EE d gl yf k GD CT eq_refl KG) as (NC & u & IU).
    { intros IN0. apply Bool.negb_true_iff in NE. assert (smem k no_emissions = true) as X; [|congruence]. apply smem_In. exact IN0. }
    unfold dmem. rewrite dget_ddel_neq by congruence. change (dmem (combine (yf_names yf) (yf_units yf)) k = true). apply dget_In_keys. now apply (in_map fst) in IU. }
  rewrite FB in CE. cbn [negb] in CE. destruct (units_differ _ _ _); [discriminate|]. now injection CE as <-.
Qed.
Lemma chain_sim : input_init (fs_exists fs) (gas_table nan fs object) (header fs) dir cwd C = Ok h ->
  exists h' f, input_init (fs_exists fs) (gas_table nan fs object) (header fs) dir cwd C' = Ok h' /\ sim what v f h h'.
Proof.
  intros O. Transparent input_init. unfold input_init in O |- *. revert O SD. generalize (@initial_cfg A C) as i. generalize (@initial_cfg A C') as i'. intros i' i O SD'.
  bindx O h1 E1. bindx O h2 E2. bindx O h3 E3. bindx O h4 E4. bindx O u E5. assert (h4 = h) as EH by congruence. rewrite EH in E4, E5. clear O EH h4. destruct u.
  destruct (SD' h1 eq_refl) as (h1' & E1' & S1 & W1). rewrite E1'. cbn [rbind].
  assert (forall n c a b, fill_natural (gas_table nan fs object) a n c = Ok b -> dget b "gaspam_file" = dget a "gaspam_file") as FK.
  { intros n c a b FN. apply fill_cases in FN as [[_ ->]|(_ & _ & d & g & r & y & z & _ & _ & _ & _ & _ & ->)]; [reflexivity|]. apply dget_dset_neq. intros X. symmetry in X. exact (file_data "gaspam" n X). }
  assert (what = "gaspam" -> content nan fs object (Read MComponents (CV p)) = Ok t) as GP.
  { intros EG. apply GC; [exact EG|]. pose proof (check_files_get _ _ _ _ E4 "gaspam_file") as X. rewrite (FK _ _ _ _ E3), (FK _ _ _ _ E2) in X.
    pose proof (si_f _ _ _ _ _ S1) as X1. rewrite EG in X1. cbn [append] in X1. rewrite X1 in X. destruct X as (v' & _ & R). apply not_redirected in R; [tauto | reflexivity | discriminate | discriminate]. }
  destruct (sim_fill nan fs object what v I12 t OB _ _ _ _ _ _ S1 W1 GP E2) as (h2' & E2' & S2 & W2'). rewrite E2'. cbn [rbind].
  destruct (sim_fill nan fs object what v I12 t OB _ _ _ _ _ _ S2 W2' GP E3) as (h3' & E3' & S3 & W3'). rewrite E3'. cbn [rbind].
  destruct (sim_files fs cwd what v I12 _ _ _ _ S3 W3' E4) as (h4' & f & E4' & S4 & R). rewrite E4'. cbn [rbind].
  assert (what = "gaspam" \/ what = "emissions" -> f = CV p) as FP.
  { intros X. apply (not_redirected f _) in R; [tauto | | |]; destruct X as [-> | ->]; (reflexivity || discriminate). }
  exists h4', f. split; [|exact S4]. rewrite (sim_units nan fs object what v I12 t OB f h h4'); [reflexivity | exact S4 | | | exact E5].
  - intros EG. rewrite FP by now left. now apply GP.
  - intros EE d g GD GT. pose proof (si_f _ _ _ _ _ S4) as SF. rewrite FP in SF by now right. rewrite EE in SF. now apply (listed_checked h g d GD GT EE SF).
Qed.
End Chain.
Opaque input_init.
Section Main.
Context {A : Type} {N : Num A}.
Variables (nan : A) (fs : files A) (object : pyval -> option (thing A)) (dir cwd : string).
Variables (cfg : dict pyval) (what : string) (v p : pyval) (t : thing A).
Hypothesis W : wf cfg.
Hypothesis P : dget cfg (what ++ "_file") = Some p.
Hypothesis IN : input nan fs object dir cwd cfg what t.
Hypothesis OB : object v = Some t.
Hypothesis SV : sun_volc what = true -> sunvolc_on cfg = true.
Hypothesis EM : what = "emissions" -> all_gases_listed nan fs object dir cwd cfg.
Local Notation cfg' := (with_object cfg what v).
Local Notation C := (driver_caller_cfg cfg).
Local Notation C' := (driver_caller_cfg (with_object cfg what v)).
Lemma what12 : In what inputs12.
Proof. destruct IN as (m & d & M & _). now apply (methods_12 cfg what m). Qed.
Lemma W2 : wf cfg'. Proof. now apply with_wf. Qed.
Lemma c_other k : k <> (what ++ "_file")%string -> k <> (what ++ "_data")%string -> dget C' k = dget C k.
Proof. intros N1 N2. rewrite !caller_get by (exact W || exact W2). now rewrite with_other. Qed.
Lemma c_given w : given C' w = given C w.
Proof. rewrite !caller_given by (exact W || exact W2). now apply (with_given cfg what v p). Qed.
Lemma c_plain k : In k ["nystart"; "nyend"; "sunvolc"] -> dget C' k = dget C k.
Proof.
  intros K. apply c_other; pose proof what12 as J; clear - K J; cbn in K; repeat (destruct K as [<-|K]); try destruct K; repeat (destruct J as [<-|J]; [discriminate|]); destruct J.
Qed.
Lemma c_sunvolc : sunvolc_on C' = sunvolc_on C.
Proof. unfold sunvolc_on. rewrite c_plain by (cbn; tauto). reflexivity. Qed.
Lemma c_years l : run_years_of C' l <-> run_years_of C l.
Proof. unfold run_years_of, Spec_Input.number. rewrite !c_plain by (cbn; tauto). reflexivity. Qed.
Lemma sim_defaults (h1 : hcfg A) : set_sun_volc_luc_defaults dir (initial_cfg C) = Ok h1 ->
  exists h1', set_sun_volc_luc_defaults dir (initial_cfg C') = Ok h1' /\ sim what v (CV p) h1 h1' /\ wf h1'.
Proof.
  intros E. pose proof (caller_wf cfg W) as WC.  pose proof (caller_wf cfg' W2) as WC'. 
  destruct (defaults_get dir C WC h1 E) as (years & Y & G).
  assert (exists h1', set_sun_volc_luc_defaults dir (@initial_cfg A C') = Ok h1') as [h1' E'].
  { destruct (sunvolc_on C) eqn:ON; [apply defaults_on; [exact WC' | now rewrite c_sunvolc]|]. apply (defaults_ok dir C' years WC'). now apply c_years, Y. }
  exists h1'. split; [exact E'|]. split; [|exact (defaults_wf dir _ _ (initial_wf C') E')].
  destruct (defaults_get dir C' WC' h1' E') as (years' & Y' & G').
  assert (sunvolc_on C = false -> years' = years) as YE.
  { intros ON. apply (run_years_unique C); [apply c_years, Y'; now rewrite c_sunvolc | now apply Y]. }
  assert (dget C (what ++ "_file") = Some p) as CF by (now rewrite caller_file).
  assert (dget C' (what ++ "_file") = None) as CF' by (rewrite caller_file by exact W2; now apply with_file).
  assert (dget C' (what ++ "_data") = Some v) as CD' by (rewrite caller_data by exact W2; apply with_data).
  assert (given C what = true) as GV by (unfold given, dmem; now rewrite CF).
  assert (sun_volc what = true -> sunvolc_on C = true) as SV' by (intros X; rewrite caller_sunvolc by exact W; now apply SV).
  assert (forall c k, wf c -> smem k (List.app (map (fun w => (w ++ "_file")%string) inputs12) (map (fun w => (w ++ "_data")%string) inputs12)) = true -> dget (@initial_cfg A c) k = option_map CV (dget c k)) as IU.
  { intros c k Wc I. apply smem_In in I. cbn in I. apply init_used; [exact Wc | |]; repeat (destruct I as [<-|I]; [reflexivity|]); destruct I. }
  assert (with_defaults dir C years (what ++ "_file") = Some (@CV A p) /\ with_defaults dir C' years' (what ++ "_file") = @None (cval A) /\ with_defaults dir C' years' (what ++ "_data") = Some (@CV A v)) as (T1 & T2 & T3).
  { pose proof (IU C (what ++ "_file")%string WC) as U1. pose proof (IU C' (what ++ "_file")%string WC') as U2. pose proof (IU C' (what ++ "_data")%string WC') as U3.
    rewrite CF in U1. rewrite CF' in U2. rewrite CD' in U3. unfold with_defaults. rewrite !c_given, !c_sunvolc. pose proof what12 as J. revert U1 U2 U3 GV SV'. clear - J.
    cbn [In inputs12] in J. repeat (destruct J as [<-|J]; [intros U1 U2 U3 GV SV'; cbn [append] in *; eqbs; rewrite ?U1, ?U2, ?U3, ?GV by reflexivity; cbn [andb orb negb];
      try (rewrite (SV' eq_refl)); rewrite ?Bool.andb_false_r; cbn [andb orb negb option_map]; destruct (sunvolc_on C); repeat split; reflexivity|]). destruct J. }
  constructor.
  - rewrite G. exact T1.
  - rewrite G'. exact T2.
  - rewrite G'. exact T3.
  - intros k N1 N2. rewrite G, G'. unfold with_defaults. rewrite !c_given, c_sunvolc.
    assert (dget (@initial_cfg A C') k = dget (initial_cfg C) k) as -> by (rewrite !init_get by assumption; now rewrite c_other).
    destruct (sunvolc_on C); [reflexivity|]. now rewrite YE.
Qed.
Lemma c103_open h : open_inputs nan fs object dir cwd cfg = Ok h -> exists h' f, open_inputs nan fs object dir cwd cfg' = Ok h' /\ sim what v f h h'.
Proof.
  intros O. unfold open_inputs at 1. apply (chain_sim nan fs object dir cwd C C' what v p t h what12 OB sim_defaults).
  - intros EG X. pose proof IN as (m & d & M & S & CT). pose proof P as P0. rewrite EG in M, S, P0. injection M as <-.
    assert (given cfg "gaspam" = true) as GV by (unfold given, dmem; now rewrite P0).
    inversion S as [q q' F RR | years F SV0 ON Y | w F D SV0 | E G | E G ON | E G1 G2 ON | c Cc years d0 g r PR E G S0 GT GR Y]; subst; try congruence; try (destruct E as [E|E]; discriminate E).
    rewrite P0 in F. injection F as <-. unfold file_read in RR. rewrite X in RR. subst q'. exact CT.
  - intros EE d gl f k GD CT FY KG NI. pose proof P as P0. rewrite EE in P0. apply (EM EE p f gl P0 FY); [|exact KG | exact NI].
    refine (open_get nan fs object dir cwd cfg h "gaspam" _ _ W O _ _); [reflexivity|]. unfold get. rewrite GD. exact CT.
  - unfold open_inputs in O. exact O.
Qed.
Lemma c103_read x : read_data nan fs object dir cwd cfg = Ok x -> read_data nan fs object dir cwd cfg' = Ok x.
Proof.
  intros R. unfold read_data in R |- *. destruct (open_inputs nan fs object dir cwd cfg) as [h|] eqn:O; [|discriminate]. cbn [rbind] in R.
  destruct (c103_open h O) as (h' & f & -> & S). cbn [rbind].
  pose proof (input_get nan fs object dir cwd cfg h what t W O IN) as G.
  assert (forall w, get nan fs object h' w = get nan fs object h w) as GE by (intros w; apply (sim_get nan fs object what v f h h' w t S what12 OB G)).
  assert (forall B w (g : thing A -> result B), optionally nan fs object h' w g = optionally nan fs object h w g) as GO by (intros; unfold optionally; rewrite GE; now rewrite (sim_opt what v f h h')).
  assert (read_handler nan fs object h' = read_handler nan fs object h) as GH.
  { unfold read_handler. rewrite !GE, !GO. unfold conc_run_of. rewrite (sim_year what v f h h' "conc_run") by (exact S || exact what12 || (cbn; tauto)). reflexivity. }
  rewrite !GE, GO, GH. exact R.
Qed.
Lemma c103_construct number float_of m : construct nan fs object dir cwd number float_of cfg = Ok m -> construct nan fs object dir cwd number float_of cfg' = Ok m.
Proof.
  unfold construct, model_construct. intros R. bindx R x E. rewrite (c103_read x E). cbn [rbind]. rewrite (with_build cfg what v W what12). exact R.
Qed.
End Main.
