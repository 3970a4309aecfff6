(** * P_Reading: the input of an instance (C102) *)
From Coq Require Import Lia.
From Verif Require Import PyBase PyBaseFacts Num M_Utils M_Pams M_Gas M_Driver M_Input M_Whole M_WholeBox M_Reading Spec_Pams Spec_Input Spec_Reading P_Pams P_Input P_Input2.

Ltac bindx H y E := match type of H with rbind ?e _ = Ok _ => destruct e as [y|] eqn:E; cbn [rbind] in H; [|discriminate H] end.
Ltac bind H E := match type of H with rbind ?e _ = Ok _ => destruct e eqn:E; cbn [rbind] in H; [|discriminate H] end.

(** ** the caller's configuration *)
Lemma check_numeric_wf (req : dict pyval) pam : wf pam -> wf (check_numeric_pamset req pam).
Proof.
  unfold check_numeric_pamset. revert pam. induction req as [|[k v] req IH]; intros pam W; [exact W|]. cbn [fold_left fst snd]. apply IH.
  destruct (dget pam k) as [x|]; [destruct (is_num x); [exact W|]|]; now apply wf_dset.
Qed.
Lemma driver_cfg_wf cfg : wf cfg -> wf (driver_cfg cfg).
Proof. intros W. unfold driver_cfg, cut_and_check_pamset. apply check_numeric_wf. rewrite cut_filter by exact W. now apply wf_filter. Qed.
Lemma caller_wf cfg : wf cfg -> wf (driver_caller_cfg cfg).
Proof. intros W. unfold driver_caller_cfg. now apply wf_dupdate. Qed.
Lemma caller_get cfg k : wf cfg -> dget (driver_caller_cfg cfg) k =
  match dget driver_required k with
  | Some d => Some (match dget cfg k with Some v => if is_num v then v else d | None => d end)
  | None => dget cfg k
  end.
Proof.
  intros W. unfold driver_caller_cfg. rewrite dget_dupdate by now apply driver_cfg_wf. unfold driver_cfg.
  rewrite cut_and_check_get by (try exact W; now apply wf_lit). unfold spec_completed.
  destruct (dget driver_required k), (dget cfg k) as [v|]; try reflexivity; destruct (dmem driver_used k); reflexivity.
Qed.
Lemma suffix_not (w s : string) (l : dict pyval) : s = "_file" \/ s = "_data" ->
  forallb (fun kv => negb (String.eqb (fst kv) (strip 5 (fst kv) ++ s))) l = true -> dget l (w ++ s) = None.
Proof.
  intros S F. apply dget_None_keys. intros I. unfold dkeys in I. apply in_map_iff in I as ([k v] & E & I). cbn in E. rewrite forallb_forall in F. specialize (F _ I). cbn [fst] in F.
  assert (strip 5 k = w) as K by (subst k; destruct S as [->| ->]; exact (strip_app w _)). rewrite K, E, String.eqb_refl in F. discriminate.
Qed.
Lemma caller_file cfg w : wf cfg -> dget (driver_caller_cfg cfg) (w ++ "_file") = dget cfg (w ++ "_file").
Proof. intros W. rewrite caller_get by exact W. now rewrite suffix_not by (auto || reflexivity). Qed.
Lemma caller_data cfg w : wf cfg -> dget (driver_caller_cfg cfg) (w ++ "_data") = dget cfg (w ++ "_data").
Proof. intros W. rewrite caller_get by exact W. now rewrite suffix_not by (auto || reflexivity). Qed.
Lemma caller_given cfg w : wf cfg -> given (driver_caller_cfg cfg) w = given cfg w.
Proof. intros W. unfold given, dmem. now rewrite caller_file, caller_data. Qed.
Lemma caller_number cfg k d : wf cfg -> dget driver_required k = Some (VInt d) -> Spec_Input.number (driver_caller_cfg cfg) k d = Spec_Input.number cfg k d.
Proof. intros W D. unfold Spec_Input.number. rewrite caller_get, D by exact W. destruct (dget cfg k) as [v|]; [destruct (is_num v) eqn:E; [now rewrite E|]|]; reflexivity. Qed.
Lemma caller_sunvolc cfg : wf cfg -> sunvolc_on (driver_caller_cfg cfg) = sunvolc_on cfg.
Proof. intros W. unfold sunvolc_on. now rewrite caller_get. Qed.
Lemma caller_years cfg l : wf cfg -> run_years_of (driver_caller_cfg cfg) l <-> run_years_of cfg l.
Proof. intros W. unfold run_years_of. now rewrite !caller_number. Qed.
Lemma caller_methods cfg : wf cfg -> spec_methods (driver_caller_cfg cfg) = spec_methods cfg.
Proof. intros W. unfold spec_methods. now rewrite !caller_number. Qed.

(** sources depend on what is given only *)
Section Source.
Context {A : Type} (ex : cval A -> bool) (gt : datum A -> result (dict (gasrow A))) (dir cwd : string).
Lemma source_caller cfg what m d : wf cfg -> source ex gt dir cwd (driver_caller_cfg cfg) what m d -> source ex gt dir cwd cfg what m d.
Proof.
  intros W S. induction S as [what m p p' F R | what m years F SV ON Y | what m v F D SV | what m E GV | what m E GV ON | what m E G1 G2 ON | what m c C years d g r P E GV S IH GT GR Y].
  - rewrite caller_file in F by exact W. now apply (S_file _ _ _ _ cfg what m p).
  - rewrite caller_file in F by exact W. rewrite caller_sunvolc in ON by exact W. apply S_zeros; try assumption. now apply caller_years.
  - rewrite caller_file in F by exact W. rewrite caller_data in D by exact W. rewrite caller_sunvolc in SV by exact W. now apply S_data.
  - rewrite caller_given in GV by exact W. now apply S_luc.
  - rewrite caller_given in GV by exact W. rewrite caller_sunvolc in ON by exact W. now apply S_sun.
  - rewrite caller_given in G1, G2 by exact W. rewrite caller_sunvolc in ON by exact W. now apply S_volc.
  - rewrite caller_given in GV by exact W. apply (S_natural _ _ _ _ cfg what m c C years d g r); try assumption. now apply caller_years.
Qed.
Lemma caller_source cfg what m d : wf cfg -> source ex gt dir cwd cfg what m d -> source ex gt dir cwd (driver_caller_cfg cfg) what m d.
Proof.
  intros W S. induction S as [what m p p' F R | what m years F SV ON Y | what m v F D SV | what m E GV | what m E GV ON | what m E G1 G2 ON | what m c C years d g r P E GV S IH GT GR Y].
  - rewrite <- caller_file in F by exact W. now apply (S_file _ _ _ _ _ what m p).
  - rewrite <- caller_file in F by exact W. rewrite <- caller_sunvolc in ON by exact W. apply S_zeros; try assumption. now apply caller_years.
  - rewrite <- caller_file in F by exact W. rewrite <- caller_data in D by exact W. rewrite <- caller_sunvolc in SV by exact W. now apply S_data.
  - rewrite <- caller_given in GV by exact W. now apply S_luc.
  - rewrite <- caller_given in GV by exact W. rewrite <- caller_sunvolc in ON by exact W. now apply S_sun.
  - rewrite <- caller_given in G1, G2 by exact W. rewrite <- caller_sunvolc in ON by exact W. now apply S_volc.
  - rewrite <- caller_given in GV by exact W. apply (S_natural _ _ _ _ _ what m c C years d g r); try assumption. now apply caller_years.
Qed.
End Source.

(** ** the fields of the input *)
Opaque driver_caller_cfg spec_methods input_init.
Section Fields.
Context {A : Type} {N : Num A}.
Variables (nan : A) (fs : files A) (object : pyval -> option (thing A)) (dir cwd : string).
Local Notation inp := (input nan fs object dir cwd).
Lemma open_source cfg h what m d : wf cfg -> open_inputs nan fs object dir cwd cfg = Ok h -> dget (spec_methods (driver_caller_cfg cfg)) what = Some m ->
  get_data h what = Ok d -> source (fs_exists fs) (gas_table nan fs object) dir cwd (driver_caller_cfg cfg) what m d.
Proof.
  intros W O M E. unfold open_inputs in O. pose proof (caller_wf cfg W) as W'. generalize dependent (driver_caller_cfg cfg). intros c O M W'.
  exact (proj1 (proj1 (c55_sources _ _ _ _ _ _ W' _ O what m M) d) E).
Qed.
Lemma open_get cfg h what t m : wf cfg -> open_inputs nan fs object dir cwd cfg = Ok h -> dget (spec_methods cfg) what = Some m ->
  get nan fs object h what = Ok t -> inp cfg what t.
Proof.
  intros W O M G. unfold get in G. bindx G d E. exists m, d. split; [exact M|]. split; [|exact G]. apply source_caller; [exact W|].
  apply (open_source cfg h); [exact W | exact O | rewrite (caller_methods cfg W); exact M | exact E].
Qed.
Lemma input_get cfg h what t : wf cfg -> open_inputs nan fs object dir cwd cfg = Ok h -> inp cfg what t -> get nan fs object h what = Ok t.
Proof.
  intros W O (m & d & M & S & C). assert (dget (spec_methods (driver_caller_cfg cfg)) what = Some m) as M' by (rewrite (caller_methods cfg W); exact M).
  apply (caller_source _ _ _ _ _ _ _ _ W) in S. pose proof (caller_wf cfg W) as W'. unfold open_inputs in O. generalize dependent (driver_caller_cfg cfg). intros c O S M' W'.
  unfold get. rewrite (proj2 (proj1 (c55_sources _ _ _ _ _ _ W' _ O what m M') d) S). exact C.
Qed.
Lemma open_keys cfg h k : wf cfg -> open_inputs nan fs object dir cwd cfg = Ok h -> k <> "nat_ch4_data" -> k <> "nat_n2o_data" ->
  exists years h3, (sunvolc_on cfg = false -> run_years_of cfg years) /\
  dget h3 k = with_defaults dir (driver_caller_cfg cfg) years k /\
  match dget h3 k with None => dget h k = None | Some v => exists v', dget h k = Some v' /\ redirected (fs_exists fs) cwd k v v' end.
Proof.
  intros W O N1 N2. destruct (before_check _ _ _ _ _ _ (caller_wf cfg W) _ O) as (h3 & years & E4 & Y & _ & _ & G).
  exists years, h3. split; [rewrite caller_sunvolc, caller_years in Y by exact W; exact Y|]. split; [now apply G|]. exact (check_files_get _ _ _ _ E4 k).
Qed.
Lemma open_plain cfg h k : wf cfg -> open_inputs nan fs object dir cwd cfg = Ok h ->
  smem k ["forc_data"; "perturb_em_data"; "perturb_forc_data"; "conc_run"] = true -> dget h k = option_map CV (dget cfg k).
Proof.
  intros W O I. apply smem_In in I.
  assert (k <> "nat_ch4_data" /\ k <> "nat_n2o_data") as [N1 N2] by (repeat (destruct I as [<-|I]; [split; discriminate|]); destruct I).
  destruct (open_keys cfg h k W O N1 N2) as (years & h3 & Y & G & X).
  assert (dget h3 k = option_map CV (dget cfg k)) as L.
  { rewrite G. unfold with_defaults. repeat (destruct I as [<-|I]; [eqbs; cbn [andb orb]; rewrite init_used by (reflexivity || now apply caller_wf); rewrite caller_get by exact W; destruct (sunvolc_on (driver_caller_cfg cfg)); reflexivity|]). destruct I. }
  rewrite L in X. destruct (dget cfg k) as [v|]; [|exact X]. cbn [option_map] in *. destruct X as (v' & -> & R). unfold redirected in R.
  replace (is_file_key k) with false in R by (repeat (destruct I as [<-|I]; [reflexivity|]); destruct I). cbn [andb] in R. now rewrite R.
Qed.
Lemma open_file cfg h k : wf cfg -> open_inputs nan fs object dir cwd cfg = Ok h ->
  smem k ["forc_file"; "perturb_em_file"; "perturb_forc_file"] = true -> dmem h k = dmem cfg k.
Proof.
  intros W O I. apply smem_In in I.
  assert (k <> "nat_ch4_data" /\ k <> "nat_n2o_data") as [N1 N2] by (repeat (destruct I as [<-|I]; [split; discriminate|]); destruct I).
  destruct (open_keys cfg h k W O N1 N2) as (years & h3 & Y & G & X).
  assert (dget h3 k = option_map CV (dget cfg k)) as L.
  { rewrite G. unfold with_defaults. repeat (destruct I as [<-|I]; [eqbs; cbn [andb orb]; rewrite init_used by (reflexivity || now apply caller_wf); rewrite caller_get by exact W; destruct (sunvolc_on (driver_caller_cfg cfg)); reflexivity|]). destruct I. }
  unfold dmem. rewrite L in X. destruct (dget cfg k) as [v|]; cbn [option_map] in X; [destruct X as (v' & -> & _); reflexivity | now rewrite X].
Qed.
Lemma open_optional cfg h what : wf cfg -> open_inputs nan fs object dir cwd cfg = Ok h -> In what ["forc"; "perturb_em"; "perturb_forc"] ->
  optional_pam h what = given cfg what.
Proof.
  intros W O I. unfold optional_pam, given.
  assert (smem (what ++ "_file") ["forc_file"; "perturb_em_file"; "perturb_forc_file"] = true /\
          smem (what ++ "_data") ["forc_data"; "perturb_em_data"; "perturb_forc_data"; "conc_run"] = true) as [F D]
    by (repeat (destruct I as [<-|I]; [split; reflexivity|]); destruct I).
  rewrite (open_file cfg h _ W O F). unfold dmem at 2. rewrite (open_plain cfg h _ W O D). unfold dmem. destruct (dget cfg (what ++ "_data")); reflexivity.
Qed.
Lemma optionally_spec {B} (wrap : B -> thing A) (f : thing A -> result B) cfg h what o m : wf cfg -> open_inputs nan fs object dir cwd cfg = Ok h ->
  In what ["forc"; "perturb_em"; "perturb_forc"] -> dget (spec_methods cfg) what = Some m -> (forall t b, f t = Ok b -> t = wrap b) ->
  optionally nan fs object h what f = Ok o -> optional_input nan fs object dir cwd cfg what (option_map wrap o).
Proof.
  intros W O I M INV E. unfold optionally in E. rewrite (open_optional cfg h what W O I) in E. destruct (given cfg what) eqn:GV.
  - bindx E t G. bindx E b F. injection E as <-. apply INV in F. subst t. cbn. split; [exact GV|]. now apply (open_get cfg h what _ m).
  - injection E as <-. exact GV.
Qed.
Lemma first_column_spec (rows : list (list A)) l : first_column rows = Ok l -> first_cells rows l.
Proof.
  revert l. unfold first_cells, first_column. induction rows as [|r rows IH]; intros l E; cbn [mapM] in E; [injection E as <-; reflexivity|].
  destruct r as [|x r]; [discriminate|]. cbn [rbind] in E. bind E F. injection E as <-. cbn. f_equal. now apply IH.
Qed.
Lemma as_rows_inv t l : @as_rows A t = Ok l -> t = TRows l. Proof. destruct t; intros E; try discriminate. now injection E as ->. Qed.
Lemma as_frame_inv t l : @as_frame A t = Ok l -> t = TFrame l. Proof. destruct t; intros E; try discriminate. now injection E as ->. Qed.
Lemma as_gas_inv t l : @as_gas A t = Ok l -> t = TGas l. Proof. destruct t; intros E; try discriminate. now injection E as ->. Qed.
Lemma as_perturb_inv t l : @as_perturb A t = Ok l -> t = TPerturb l. Proof. destruct t; intros E; try discriminate. now injection E as ->. Qed.
Lemma as_forc_inv t l : @as_forc A t = Ok l -> t = TForc l. Proof. destruct t; intros E; try discriminate. now injection E as ->. Qed.

Transparent spec_methods.
Lemma c102_fields cfg x : wf cfg -> read_data nan fs object dir cwd cfg = Ok x ->
  optional_input nan fs object dir cwd cfg "forc" (option_map (@TForc A) (x_forc x)) /\
  (x_forc x = None ->
     (exists g, inp cfg "gaspam" (TGas g) /\ x_gas x = map (fun kl => (fst kl, gl_gas (snd kl))) g) /\
     inp cfg "nat_ch4" (TFrame (x_nat_ch4 x)) /\ inp cfg "nat_n2o" (TFrame (x_nat_n2o x)) /\
     inp cfg "concentrations" (TFrame (x_conc x)) /\ inp cfg "emissions" (TFrame (x_emis x)) /\
     optional_input nan fs object dir cwd cfg "perturb_em" (option_map (@TPerturb A) (x_perturb_em x)) /\
     optional_input nan fs object dir cwd cfg "perturb_forc" (option_map (@TPerturb A) (x_perturb_forc x)) /\
     x_conc_run x = match dget cfg "conc_run" with Some v => truth v | None => false end) /\
  inp cfg "rf_volc_n" (TRows (x_vn x)) /\ inp cfg "rf_volc_s" (TRows (x_vs x)) /\
  (exists rows, inp cfg "rf_sun" (TRows rows) /\ first_cells rows (x_sun x)) /\ (exists rows, inp cfg "rf_luc" (TRows rows) /\ first_cells rows (x_luc x)).
Proof.
  intros W R. unfold read_data in R. bindx R h OI. pose proof OI as O. bindx R o FO. bindx R d HX.
  bind R G1. bind R V1. bind R G2. bind R V2. bind R G3. bind R V3. bind R F3. bind R G4. bind R V4. bind R F4. injection R as <-. cbn [with_series x_forc x_vn x_vs x_sun x_luc x_gas x_nat_ch4 x_nat_n2o x_conc x_emis x_perturb_em x_perturb_forc x_conc_run].
  apply as_rows_inv in V1, V2, V3, V4. subst.
  assert (x_forc d = o) as XF.
  { destruct o as [f|]; [injection HX as <-; reflexivity|]. unfold read_handler in HX.
    repeat (match type of HX with rbind ?e _ = Ok _ => destruct e eqn:?; cbn [rbind] in HX; [|discriminate HX] end). injection HX as <-. reflexivity. }
  split.
  { rewrite XF. now apply (optionally_spec (@TForc A) as_forc cfg h "forc" o MForc W O); [left; reflexivity | | exact as_forc_inv |]. }
  split.
  { intros NF. rewrite XF in NF. subst o. rewrite NF in HX. unfold read_handler in HX.
    bind HX GA. bind HX A1. bind HX GB. bind HX A2. bind HX GC. bind HX A3. bind HX GD. bind HX A4. bind HX GE. bind HX A5. bind HX P1. bind HX P2. injection HX as <-.
    cbn [x_gas x_nat_ch4 x_nat_n2o x_conc x_emis x_perturb_em x_perturb_forc x_conc_run].
    apply as_gas_inv in A1. apply as_frame_inv in A2, A3, A4, A5. subst.
    split; [eexists; split; [refine (open_get cfg h "gaspam" _ _ W O _ GA); reflexivity|reflexivity]|].
    split; [refine (open_get cfg h "nat_ch4" _ _ W O _ GB); reflexivity|]. split; [refine (open_get cfg h "nat_n2o" _ _ W O _ GC); reflexivity|].
    split; [refine (open_get cfg h "concentrations" _ _ W O _ GD); reflexivity|]. split; [refine (open_get cfg h "emissions" _ _ W O _ GE); reflexivity|].
    split; [eapply (optionally_spec (@TPerturb A) as_perturb cfg h "perturb_em"); [exact W | exact O | right; left; reflexivity | reflexivity | exact as_perturb_inv | exact P1]|].
    split; [eapply (optionally_spec (@TPerturb A) as_perturb cfg h "perturb_forc"); [exact W | exact O | right; right; left; reflexivity | reflexivity | exact as_perturb_inv | exact P2]|].
    unfold conc_run_of. rewrite (open_plain cfg h "conc_run" W O) by reflexivity. destruct (dget cfg "conc_run"); reflexivity. }
  split; [refine (open_get cfg h "rf_volc_n" _ _ W O _ G1); reflexivity|]. split; [refine (open_get cfg h "rf_volc_s" _ _ W O _ G2); reflexivity|].
  split; [eexists; split; [refine (open_get cfg h "rf_sun" _ _ W O _ G3); reflexivity | now apply first_column_spec] |
          eexists; split; [refine (open_get cfg h "rf_luc" _ _ W O _ G4); reflexivity | now apply first_column_spec]].
Qed.
End Fields.
