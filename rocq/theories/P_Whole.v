(** * P_Whole: proofs about M_Whole *)
From Verif Require Import PyBase PyBaseFacts Num M_Utils M_Flat M_Pams M_Gas M_Forcing M_RFuns M_Carbon M_TwoLayer M_UDM M_Driver M_Results M_Names M_Reader M_BoxRun M_Parallel M_Whole
  Spec_Driver Spec_Pams Spec_Parallel Spec_Rerun Spec_Whole P_Pams P_Driver P_Driver2 P_Driver3 P_Parallel P_Parallel2 P_Parallel3 P_Rerun P_Rerun2.

(** ** Equal parameters give equal numbers *)
Lemma eqb_whole a u : py_eqb a u = true -> whole_number a = whole_number u.
Proof.
  unfold whole_number. intros E. assert (Q : match num_of a, num_of u with Some x, Some y => float_eqb x y = true | None, None => True | _, _ => False end).
  { destruct a, u; cbn in E |- *; try exact I; try discriminate; exact E. }
  destruct (num_of a) as [x|], (num_of u) as [y|]; try contradiction; [|reflexivity].
  destruct x as [p|b|], y as [q|b'|]; cbn in Q; try discriminate; try reflexivity.
  apply Qeq_bool_eq in Q. rewrite (Qred_complete _ _ Q). reflexivity.
Qed.
Lemma alike_whole d d' k : alike (dget d k) (dget d' k) -> whole_at d k = whole_at d' k.
Proof.
  intros (a & b & u & Ha & Hb & Ea & Eb). unfold whole_at. rewrite Ha, Hb.
  assert (X : whole_number a = whole_number u) by (destruct Ea as [->|Ea]; [reflexivity|apply eqb_whole, Ea]).
  assert (Y : whole_number b = whole_number u) by (destruct Eb as [->|Eb]; [reflexivity|apply eqb_whole, Eb]). congruence.
Qed.

Section Parameters.
Context {A : Type} {N : Num A}.
Variable (number : pyfloat -> A).
Lemma num_at_same d d' k : dget d k = dget d' k -> num_at number d k = num_at number d' k.
Proof. unfold num_at. intros ->. reflexivity. Qed.
Lemma whole_at_same d d' k : dget d k = dget d' k -> whole_at d k = whole_at d' k.
Proof. unfold whole_at. intros ->. reflexivity. Qed.
Lemma same_hpam i j cl br : same_parameters i j -> in_rf_run i = false -> hpam_of number cl br (in_pams i) = hpam_of number cl br (in_pams j).
Proof.
  intros (_ & _ & _ & S & W & _) R.
  assert (X : forall k, In k ["nystart"; "nyend"; "emstart"] -> whole_at (in_pams i) k = whole_at (in_pams j) k).
  { intros k I. apply alike_whole, W; [right; exact I|exact R]. }
  assert (Y : forall k, ~ In k ["idtm"; "nystart"; "nyend"; "emstart"] -> num_at number (in_pams i) k = num_at number (in_pams j) k).
  { intros k I. apply num_at_same, S, I. }
  assert (NI : forall k, smem k ["idtm"; "nystart"; "nyend"; "emstart"] = false -> ~ In k ["idtm"; "nystart"; "nyend"; "emstart"]).
  { intros k E I. cbn in I, E. repeat (destruct I as [I|I]; [subst k; discriminate E|]). contradiction. }
  unfold hpam_of.
  rewrite (X "nystart"), (X "nyend"), (X "emstart") by (cbn; auto).
  rewrite (whole_at_same _ _ "ref_yr" (S "ref_yr" (NI "ref_yr" eq_refl))).
  rewrite !Y by (apply NI; reflexivity).
  rewrite (S "lifetime_mode" (NI "lifetime_mode" eq_refl)), (S "conc_run" (NI "conc_run" eq_refl)), (S "just_one" (NI "just_one" eq_refl)). reflexivity.
Qed.
Lemma same_ccpam i j : same_parameters i j -> cc_pam_of number (in_carbon i) = cc_pam_of number (in_carbon j).
Proof.
  intros (_ & _ & _ & _ & _ & S & X0 & RS & RB). unfold cc_pam_of. rewrite X0, RS, RB.
  assert (Y : forall k, num_at number (c_pam (in_carbon i)) k = num_at number (c_pam (in_carbon j)) k) by (intros k; apply num_at_same, S).
  rewrite !Y, (whole_at_same _ _ "idtm" (S _)), (whole_at_same _ _ "years_tot" (S _)). reflexivity.
Qed.
End Parameters.

(** ** Completed runs *)
Section Complete.
Context {A : Type} {N : Num A} {T : Type} (th : thermal A T).
Hypothesis DO : distinct_outputs (t_names th).
Lemma run_has nan CC year data sc c gt t0 (cc0 : CC) r : d_rf c = None ->
  o_exn (any_run nan CC year data sc th c gt t0 cc0 true true r) = None ->
  forall k, In k (output_names (t_names th)) \/ In k frame_names -> dget (o_results (any_run nan CC year data sc th c gt t0 cc0 true true r)) k <> None.
Proof.
  intros R. unfold any_run, run. rewrite R. destruct (run_years T th c _ _ _ _ t0 _ r) as [s e] eqn:Y. destruct e; [discriminate|].
  destruct (feedback_series _ _ _ _) as [series|]; [|discriminate].
  destruct (any_add_results _ _ _ _ _ _ _) as [fs|] eqn:AD; [|discriminate]. intros _ k K. cbn [o_results].
  assert (KK : dkeys fs = frame_names).
  { unfold any_add_results in AD. do 3 (match type of AD with rbind ?x _ = _ => destruct x; cbn [rbind] in AD; [|discriminate] end).
    cbv zeta in AD. destruct (data _ _ _); cbn [rbind] in AD; [|discriminate]. inversion AD. reflexivity. }
  apply add_names in AD. destruct AD as [WF _].
  assert (W : wf (map (fun kv => (fst kv, @Fr A (snd kv))) fs)) by (unfold wf, dkeys; rewrite map_map; exact WF).
  rewrite dget_dupdate by exact W. destruct (dget (map _ fs) k) as [x|] eqn:D; [discriminate|]. destruct K as [K|K].
  - destruct (run_years_complete th c DO _ _ _ t0 _ r s Y) as (tr & _ & _ & C). destruct (C k K) as (col & X & _). rewrite X. discriminate.
  - exfalso. apply dget_None_keys in D. apply D. unfold dkeys. rewrite map_map. fold (dkeys fs). cbn [fst]. rewrite <- KK in K. exact K.
Qed.
End Complete.

(** ** A run of a used instance *)
Definition names_of (cl : thermal_class) : dict string := match cl with TwoLayer => tl_names | UpwellingDiffusion => ud_names end.
Lemma names_distinct cl : distinct_outputs (names_of cl).
Proof. destruct cl; [exact ud_distinct | exact tl_distinct]. Qed.

Section Runs.
Context {A : Type} {N : Num A}.
Variables (nan : A) (number : pyfloat -> A).
Local Notation RUN := (whole_run nan number).
(** the instance has run other configurations since it was built *)
Definition akin (w0 w : whole A) : Prop :=
  q_thermal w = q_thermal w0 /\ q_inst w = q_inst w0 /\ q_fixed w = q_fixed w0 /\ q_results w0 = [] /\
  in_rf_run (q_params w) = in_rf_run (q_params w0) /\
  match q_fixed w0 with
  | None => d_rf (q_inst w0) <> None /\ forall k, ~ In k (output_names (names_of (q_thermal w0))) -> dget (q_results w) k = None
  | Some _ => d_rf (q_inst w0) = None /\ in_rf_run (q_params w0) = false /\ earlier_runs (names_of (q_thermal w0)) (q_gas w0) (q_gas w) (q_results w)
  end.

Section Model.
Context {T : Type} (th : thermal A T) (t0 : T).
Hypothesis DO : distinct_outputs (t_names th).
Lemma from_akin w0 w i w' : names_of (q_thermal w0) = t_names th -> in_rf_run i = in_rf_run (q_params w) ->
  akin w0 w -> run_from nan number th t0 i w = Ok w' -> akin w0 w'.
Proof.
  intros NM RI (H1 & H2 & H3 & H4 & H5 & H6). unfold run_from. rewrite H3. unfold akin. rewrite NM in *. destruct (q_fixed w0) as [f|] eqn:F.
  - destruct H6 as (R & RF & E). destruct (hpam_of _ _ _ _) as [hp|]; cbn [rbind]; [|discriminate]. destruct (cc_pam_of _ _) as [[cp x0]|]; cbn [rbind]; [|discriminate].
    destruct (o_exn _); [discriminate|]. intros X. injection X as <-. cbn [q_thermal q_inst q_fixed q_results q_gas q_params]. rewrite H2.
    do 4 (split; [congruence|]). split; [congruence|]. split; [exact R|]. split; [exact RF|].
    exact (one_more_run (t_names th) (q_gas w0) T th (q_gas w) (q_results w) nan (cc_state A) (co2em2conc cp) (carbon_data nan cp (c_p (scenario_of hp f)) (c_emis (scenario_of hp f)))
      (scenario_of hp f) (q_inst w0) t0 (start_hold cp x0 (q_hold w)) true true eq_refl E).
  - destruct H6 as (R & E). unfold M_Whole.forcing_run. destruct (d_rf (q_inst w0)) as [rf|] eqn:RF; [|contradiction].
    set (o := run T th _ _ _ _ _ _ _ _ _ _ _) in *. destruct (o_exn o); [discriminate|]. intros X. injection X as <-.
    cbn [q_thermal q_inst q_fixed q_results q_gas q_params]. do 4 (split; [congruence|]). split; [congruence|]. split; [congruence|].
    intros k NI. specialize (E k NI). rewrite <- E. subst o. rewrite H2.
    apply (c53_forcing th DO _ _ _ _ _ _ t0 tt tt true true true (q_results w) (q_results w) RF). exact NI.
Qed.
Lemma from_same w0 w i j a : names_of (q_thermal w0) = t_names th -> akin w0 w -> same_parameters i j -> in_rf_run i = in_rf_run (q_params w) ->
  run_from nan number th t0 j w0 = Ok a -> exists b, run_from nan number th t0 i w = Ok b /\ q_params b = i /\ same_results (q_results a) (q_results b).
Proof.
  intros NM (H1 & H2 & H3 & H4 & H5 & H6) SP RI. unfold run_from. rewrite H3, NM, H4, H2 in *. destruct (q_fixed w0) as [f|] eqn:F.
  - destruct H6 as (R & RF & E). rewrite (same_hpam number i j (f_cl f) (f_br f) SP) by congruence. rewrite (same_ccpam number i j SP).
    destruct (hpam_of _ _ _ _) as [hp|]; cbn [rbind]; [|discriminate]. destruct (cc_pam_of _ _) as [[cp x0]|]; cbn [rbind]; [|discriminate].
    set (sc := scenario_of hp f).
    assert (S : same_outcome (coupled_run nan cp sc th (q_inst w0) (q_gas w0) t0 (start_hold cp x0 (q_hold w0)) true true [])
                  (coupled_run nan cp sc th (q_inst w0) (q_gas w) t0 (start_hold cp x0 (q_hold w)) true true (q_results w))).
    { apply (any_rerun th DO nan (cc_state A) (co2em2conc cp) (carbon_data nan cp (c_p sc) (c_emis sc)) sc (q_inst w0) (q_gas w0) (q_gas w) t0 _ _ same_hold true true (q_results w)
        (default_forgets cp nan sc)); [repeat split|exact E]. }
    pose proof (one_more_run (t_names th) (q_gas w0) T th (q_gas w) (q_results w) nan (cc_state A) (co2em2conc cp) (carbon_data nan cp (c_p sc) (c_emis sc))
      sc (q_inst w0) t0 (start_hold cp x0 (q_hold w)) true true eq_refl E) as E'. cbv zeta in E'.
    apply (earlier_facts _ DO) in E'. destruct E' as [_ KN].
    pose proof (run_has th DO nan (cc_state A) (co2em2conc cp) (carbon_data nan cp (c_p sc) (c_emis sc)) sc (q_inst w0) (q_gas w0) t0 (start_hold cp x0 (q_hold w0)) [] R) as HAS.
    change (any_run nan (cc_state A) (co2em2conc cp) (carbon_data nan cp (c_p sc) (c_emis sc)) sc th (q_inst w0)) with (coupled_run nan cp sc th (q_inst w0)) in KN, HAS.
    destruct S as (SE & _ & SR). rewrite <- SE. destruct (o_exn _) eqn:OE; [discriminate|]. intros X. injection X as <-. eexists. split; [reflexivity|].
    cbn [q_params q_results]. split; [reflexivity|]. intros k. specialize (SR k). specialize (HAS eq_refl k). specialize (KN k).
    match goal with |- ?l = ?r => destruct l as [v|] eqn:L; [symmetry; apply SR; reflexivity|]; destruct r as [v|] eqn:Q; [|reflexivity] end.
    exfalso. apply HAS; [apply KN; intros Y; pose proof (eq_trans (eq_sym Q) Y) as Y2; discriminate Y2|exact L].
  - destruct H6 as (R & E). unfold M_Whole.forcing_run. destruct (d_rf (q_inst w0)) as [rf|] eqn:RF; [|contradiction].
    set (e2c := fun (h : unit) (_ : Z) (_ : option (dict A)) => Ok h). set (c2f := fun (_ : unit) (_ : Z) (_ _ : A) => Err ValueError).
    pose proof (c53_forcing th DO e2c c2f (fun _ _ _ => Err ValueError) None (q_inst w0) rf t0 tt tt true true true [] (q_results w) RF) as Q.
    pose proof (c53_forcing th DO e2c c2f (fun _ _ _ => Err ValueError) None (q_inst w0) rf t0 tt tt true true true (q_results w) (q_results w) RF) as Q'.
    destruct Q as (QR & QE & QN).
    rewrite <- QE. destruct (o_exn _) eqn:OE; [discriminate|]. intros X. injection X as <-. eexists. split; [reflexivity|].
    cbn [q_params q_results]. split; [reflexivity|]. intros k. destruct (in_dec string_dec k (output_names (t_names th))) as [I|I]; [apply QR, I|].
    rewrite (QN k I). cbn [dget]. symmetry. rewrite <- (E k I). apply Q'. exact I.
Qed.
End Model.

Lemma instance_rf i c i' : cfg_run i c = Ok i' -> in_rf_run i' = in_rf_run i.
Proof.
  unfold cfg_run, instance_run. destruct (in_rf_run i) eqn:R; [intros X; injection X as <-; reflexivity|].
  destruct (handler_rerun _ _ _); cbn [rbind]; [|discriminate]. destruct (carbon_reset _ _); cbn [rbind]; [|discriminate]. intros X. injection X as <-. reflexivity.
Qed.
Local Notation GO w c := (whole_run nan number w (cf_udm c) (cf_emiconc c) (cf_carbon c)).
Lemma from_params {T} (th : thermal A T) t0 i w w' : run_from nan number th t0 i w = Ok w' -> q_params w' = i.
Proof.
  unfold run_from. destruct (q_fixed w).
  - destruct (hpam_of _ _ _ _); cbn [rbind]; [|discriminate]. destruct (cc_pam_of _ _) as [[? ?]|]; cbn [rbind]; [|discriminate].
    destruct (o_exn _); [discriminate|]. intros X. injection X as <-. reflexivity.
  - destruct (o_exn _); [discriminate|]. intros X. injection X as <-. reflexivity.
Qed.
Lemma whole_params w c w' : GO w c = Ok w' -> cfg_run (q_params w) c = Ok (q_params w').
Proof.
  unfold whole_run. fold (cfg_run (q_params w) c). destruct (q_thermal w).
  - destruct (ud_pam_of _ _); cbn [rbind]; [|discriminate]. destruct (cfg_run _ _) as [i|]; cbn [rbind]; [|discriminate]. intros H. apply from_params in H. congruence.
  - destruct (tl_pam_of _ _); cbn [rbind]; [|discriminate]. destruct (cfg_run _ _) as [i|]; cbn [rbind]; [|discriminate]. intros H. apply from_params in H. congruence.
Qed.
Lemma whole_akin w0 w c w' : akin w0 w -> GO w c = Ok w' -> akin w0 w'.
Proof.
  intros K. pose proof K as (H1 & _). unfold whole_run. fold (cfg_run (q_params w) c). rewrite H1. destruct (q_thermal w0) eqn:Q.
  - destruct (ud_pam_of _ _) as [p|]; cbn [rbind]; [|discriminate]. destruct (cfg_run _ _) as [i|] eqn:I; cbn [rbind]; [|discriminate].
    apply (from_akin (ud_thermal p) (ud_init p) ud_distinct w0 w i w'); [rewrite Q; reflexivity|exact (instance_rf _ _ _ I)|exact K].
  - destruct (tl_pam_of _ _) as [p|]; cbn [rbind]; [|discriminate]. destruct (cfg_run _ _) as [i|] eqn:I; cbn [rbind]; [|discriminate].
    apply (from_akin (tl_thermal p) (tl_init p) tl_distinct w0 w i w'); [rewrite Q; reflexivity|exact (instance_rf _ _ _ I)|exact K].
Qed.
Lemma whole_same w0 w c i a : akin w0 w -> GO w0 c = Ok a -> cfg_run (q_params w) c = Ok i -> same_parameters i (q_params a) ->
  exists b, GO w c = Ok b /\ q_params b = i /\ same_results (q_results a) (q_results b).
Proof.
  intros K HA I S. pose proof K as (H1 & _). pose proof (whole_params _ _ _ HA) as P0. revert HA. unfold whole_run. fold (cfg_run (q_params w) c) (cfg_run (q_params w0) c).
  rewrite H1, I, P0. destruct (q_thermal w0) eqn:Q.
  - destruct (ud_pam_of _ _) as [p|]; cbn [rbind]; [|discriminate].
    apply (from_same (ud_thermal p) (ud_init p) ud_distinct w0 w i (q_params a) a); [rewrite Q; reflexivity|exact K|exact S|exact (instance_rf _ _ _ I)].
  - destruct (tl_pam_of _ _) as [p|]; cbn [rbind]; [|discriminate].
    apply (from_same (tl_thermal p) (tl_init p) tl_distinct w0 w i (q_params a) a); [rewrite Q; reflexivity|exact K|exact S|exact (instance_rf _ _ _ I)].
Qed.
Lemma after_akin w0 cs w : akin w0 w0 -> after_runs nan number w0 cs w -> akin w0 w /\ cfg_runs (q_params w0) cs = Ok (q_params w).
Proof.
  intros K H. induction H as [|cs w c w' H [IH IP] E]; [split; [exact K|reflexivity]|].
  split; [exact (whole_akin _ _ _ _ IH E)|]. rewrite cfg_runs_snoc, IP. exact (whole_params _ _ _ E).
Qed.

(** ** A new instance *)
Variables (float_of : A -> pyfloat) (label_of : A -> Z).
Lemma build_new cfg x w : build number float_of cfg x = Ok w -> akin w w /\ (wf cfg -> new_instance (q_params w)).
Proof.
  unfold build. destruct (driver_thermal cfg) as [th|]; cbn [rbind]; [|discriminate]. destruct (whole_at _ "nystart") as [y0|]; cbn [rbind]; [|discriminate].
  destruct (whole_at _ "nyend") as [y1|]; cbn [rbind]; [|discriminate]. destruct (x_forc x) as [rf|] eqn:RF.
  - intros X. injection X as <-. split; [|intros _; left; reflexivity]. unfold akin. cbn [q_thermal q_inst q_fixed q_results q_params in_rf_run d_rf].
    do 5 (split; [reflexivity|]). split; [discriminate|]. intros k _. reflexivity.
  - destruct (driver_carbon_class cfg) as [cls|]; cbn [rbind]; [|discriminate]. destruct cls; cbn [rbind]; [|discriminate].
    destruct (match x_perturb_em x with None => _ | Some _ => _ end) as [emis|]; cbn [rbind]; [|discriminate].
    destruct (make_cl_and_br_dictionaries _) as [clbr|]; cbn [rbind]; [|discriminate]. destruct (hpam_of _ _ _ _) as [hp|]; cbn [rbind]; [|discriminate].
    destruct (precalculate _ _ _ _ _) as [pre|]; cbn [rbind]; [|discriminate]. destruct (fr_get _ _ _) as [st|]; cbn [rbind]; [|discriminate].
    destruct (driver_carbon _ _ _) as [c|] eqn:C; cbn [rbind]; [|discriminate]. destruct (cc_pam_of _ _) as [cp|]; cbn [rbind]; [|discriminate].
    intros X. injection X as <-. split.
    + unfold akin. cbn [q_thermal q_inst q_fixed q_results q_params q_gas in_rf_run d_rf]. do 5 (split; [reflexivity|]). split; [reflexivity|]. split; [reflexivity|]. apply no_run.
    + intros W. right. exists cfg, (VNpFloat (float_of st)). cbn [q_params in_rf_run in_pams in_env in_carbon]. auto.
Qed.
Lemma c98_rerun cfg x w0 cs w c i a : build number float_of cfg x = Ok w0 -> after_runs nan number w0 cs w ->
  GO w0 c = Ok a -> instance_run (q_params w) (cf_udm c) (cf_emiconc c) (cf_carbon c) = Ok i -> same_parameters i (q_params a) ->
  exists b, GO w c = Ok b /\ q_params b = i /\ same_results (q_results a) (q_results b).
Proof. intros B H. apply whole_same. apply build_new in B. apply (after_akin w0 cs w); [apply B|exact H]. Qed.
Lemma c98_again cfg x w0 cs w c a b : build number float_of cfg x = Ok w0 -> after_runs nan number w0 cs w ->
  GO w0 c = Ok a -> GO w c = Ok b -> same_parameters (q_params b) (q_params a) -> same_results (q_results a) (q_results b).
Proof.
  intros B H HA HB S. destruct (c98_rerun cfg x w0 cs w c (q_params b) a B H HA) as (b' & B1 & _ & B3); [exact (whole_params _ _ _ HB)|exact S|]. congruence.
Qed.

(** ** The parallel wrapper *)
Lemma series_same y0 y1 (a b : whole A) v u : same_results (q_results a) (q_results b) -> whole_timeseries label_of y0 y1 a v u = whole_timeseries label_of y0 y1 b v u.
Proof.
  intros S. unfold whole_timeseries. destruct (whole_number y0); cbn [rbind]; [|reflexivity]. destruct (whole_number y1); cbn [rbind]; [|reflexivity].
  assert (G : forall y0 y1, get_variable_timeseries y0 y1 (q_results a) v u = get_variable_timeseries y0 y1 (q_results b) v u).
  { intros. unfold get_variable_timeseries, from_conc, from_em, from_forc, from_ohc, volc_forcing, sun_forcing, frame_at, array_at.
    destruct (dget variable_dict v), (dget carbon_cycle_outputs v); rewrite ?S; reflexivity. }
  rewrite G. reflexivity.
Qed.
Variables (inputs : dict pyval -> result (data A)) (writer : pyval -> pyval -> pyval -> result units).
Local Notation construct := (whole_construct number float_of inputs).
Local Notation EXEC := (whole_execute nan number float_of label_of inputs writer).
Lemma rows_same (w : wrapper units (whole A)) a b ix vars : same_results (q_results a) (q_results b) ->
  variable_rows (whole_timeseries label_of) (with_cscm w a) ix vars = variable_rows (whole_timeseries label_of) (with_cscm w b) ix vars.
Proof.
  intros Hs. destruct w as [g st en cs sc mo]. unfold with_cscm. cbn [w_getter w_start w_end w_scen w_model].
  induction vars as [|v r IH]; [reflexivity|]. cbn [variable_rows w_start w_end w_cscm w_getter]. rewrite (series_same st en a b v g Hs).
  destruct (whole_timeseries _ st en b v g) as [[[ys ts] u]|]; [|reflexivity]. cbn [rbind].
  destruct ys as [ys|]; [|exact IH]. destruct (String.eqb u "NoUnit"); [exact IH|]. destruct ix as [ix|]; [|reflexivity].
  rewrite IH. reflexivity.
Qed.
Lemma whole_rows (w : wrapper units (whole A)) cfgs rows vars : let w0 := w_cscm w in akin w0 w0 ->
  new_instance (q_params w0) -> (in_rf_run (q_params w0) = false -> self_contained (q_params w0) cfgs) ->
  (forall c, In c cfgs -> exists a, GO w0 c = Ok a /\ variable_rows (whole_timeseries label_of) (with_cscm w a) (cf_index c) vars = Ok (rows c)) ->
  forall bs hist v, incl hist cfgs -> incl bs cfgs -> after_runs nan number w0 hist v ->
  cfg_rows (whole_run nan number) (whole_timeseries label_of) (with_cscm w v) bs vars = Ok (flat_map rows bs).
Proof.
  intros w0 K New Hself Hrow. induction bs as [|c r IH]; intros hist v Hh Hb Hr; [reflexivity|]. cbn [cfg_rows flat_map].
  assert (Hc : In c cfgs) by (apply Hb; left; reflexivity).
  destruct (Hrow c Hc) as (a & Ha & Hv). destruct (after_akin w0 hist v K Hr) as [KV PV]. pose proof (whole_params _ _ _ Ha) as Pa.
  destruct (runs_on (q_params w0) cfgs hist c (q_params v) (q_params a) New Hself Hh Hc PV Pa) as [i1 H1].
  pose proof (history_free (q_params w0) cfgs hist c (q_params v) i1 (q_params a) New Hself Hh Hc PV H1 Pa) as SP.
  destruct (whole_same w0 v c i1 a KV Ha H1 SP) as (b & Hb1 & Hb2 & Hb3).
  change (w_cscm (with_cscm w v)) with v. rewrite Hb1. cbn [rbind]. change (with_cscm (with_cscm w v) b) with (with_cscm w b).
  rewrite <- (rows_same w a b (cf_index c) vars Hb3), Hv. cbn [rbind].
  rewrite (IH (hist ++ [c]) b); [reflexivity | | intros x Hx; apply Hb; right; exact Hx |].
  - intros x Hx. apply in_app_or in Hx. destruct Hx as [Hx|[<-|[]]]; [apply Hh, Hx | exact Hc].
  - econstructor; [exact Hr | exact Hb1].
Qed.
Lemma c98 rows orders scens cfgs vars mw : scens <> [] -> cfgs <> [] -> (1 <= mw)%Z -> (forall s, In s scens -> wf s) ->
  (forall s w, In s scens -> construct (check_numeric_pamset window_default s) = Ok w -> in_rf_run (q_params w) = false -> self_contained (q_params w) cfgs) ->
  (forall s c, In s scens -> In c cfgs -> EXEC {| j_cfgs := [c]; j_vars := vars; j_scen := s |} = Ok (rows s c)) ->
  run_ciceroscm_parallel EXEC orders scens cfgs vars mw = Ok (flat_map (fun s => flat_map (rows s) cfgs) scens).
Proof.
  intros Hs Hc Hm Hwf Hnew Hone. apply (c64_general _ rows); try assumption.
  intros s bs Hin Hbs Hi. unfold whole_execute, execute_run. cbn [j_scen j_cfgs j_vars].
  set (sd := check_numeric_pamset window_default s). specialize (Hnew s). fold sd in Hnew.
  assert (Hw : exists w, wrapper_init construct writer sd = Ok w).
  { destruct bs as [|c r]; [congruence|]. specialize (Hone s c Hin (Hi c (or_introl eq_refl))). unfold whole_execute, execute_run in Hone.
    cbn [j_scen] in Hone. fold sd in Hone. destruct (wrapper_init construct writer sd); [eauto | discriminate]. }
  destruct Hw as [w Hw]. rewrite Hw. cbn [rbind].
  assert (Hcon : construct sd = Ok (w_cscm w)).
  { unfold wrapper_init in Hw. destruct (item_of sd "nystart"); [|discriminate]. cbn [rbind] in Hw.
    destruct (item_of sd "nyend"); [|discriminate]. cbn [rbind] in Hw.
    destruct (if dmem sd "gaspam_file" then _ else _); [|discriminate]. cbn [rbind] in Hw.
    destruct (writer _ _ _); [|discriminate]. cbn [rbind] in Hw. destruct (construct sd); [|discriminate]. cbn [rbind] in Hw.
    destruct (item_of sd "scenname"); [|discriminate]. cbn [rbind] in Hw. injection Hw as <-. reflexivity. }
  pose proof (Hnew (w_cscm w) Hin Hcon) as Hself.
  assert (Wsd : wf sd) by (apply check_numeric_wf, Hwf, Hin).
  unfold whole_construct in Hcon. destruct (inputs sd) as [x|]; cbn [rbind] in Hcon; [|discriminate].
  destruct (build_new sd x (w_cscm w) Hcon) as [K New]. specialize (New Wsd).
  assert (Hrow : forall c, In c cfgs -> rows s c <> [] /\
     exists a, GO (w_cscm w) c = Ok a /\ variable_rows (whole_timeseries label_of) (with_cscm w a) (cf_index c) vars = Ok (rows s c)).
  { intros c Hcin. specialize (Hone s c Hin Hcin). unfold whole_execute, execute_run in Hone. cbn [j_scen j_cfgs j_vars] in Hone. fold sd in Hone.
    rewrite Hw in Hone. cbn [rbind] in Hone. unfold run_over_cfgs in Hone. cbn [cfg_rows] in Hone.
    destruct (GO (w_cscm w) c) as [j|]; [|discriminate]. cbn [rbind] in Hone.
    destruct (variable_rows _ (with_cscm w j) (cf_index c) vars) as [rs|] eqn:E; [|discriminate]. cbn [rbind] in Hone.
    rewrite app_nil_r in Hone. destruct rs as [|y rs]; [discriminate|]. injection Hone as Hone. rewrite <- Hone.
    split; [discriminate|]. exists j. auto. }
  unfold run_over_cfgs.
  assert (Ew : w = with_cscm w (w_cscm w)) by (destruct w; reflexivity).
  rewrite Ew at 1.
  rewrite (whole_rows w cfgs (rows s) vars K New Hself (fun c H => proj2 (Hrow c H)) bs [] (w_cscm w)).
  - cbn [rbind]. destruct bs as [|c r]; [congruence|]. cbn [flat_map].
    destruct (Hrow c (Hi c (or_introl eq_refl))) as [Hne _]. destruct (rows s c); [congruence | reflexivity].
  - intros y [].
  - exact Hi.
  - constructor.
Qed.
Lemma c98_forcing rows orders scens cfgs vars mw : scens <> [] -> cfgs <> [] -> (1 <= mw)%Z -> (forall s, In s scens -> wf s) ->
  (forall s x, In s scens -> inputs (check_numeric_pamset window_default s) = Ok x -> x_forc x <> None) ->
  (forall s c, In s scens -> In c cfgs -> EXEC {| j_cfgs := [c]; j_vars := vars; j_scen := s |} = Ok (rows s c)) ->
  run_ciceroscm_parallel EXEC orders scens cfgs vars mw = Ok (flat_map (fun s => flat_map (rows s) cfgs) scens).
Proof.
  intros Hs Hc Hm Hwf Hf. apply c98; try assumption. intros s w Hin. unfold whole_construct. destruct (inputs _) as [x|] eqn:X; cbn [rbind]; [|discriminate].
  specialize (Hf s x Hin X). unfold build. destruct (driver_thermal _); cbn [rbind]; [|discriminate]. destruct (whole_at _ "nystart"); cbn [rbind]; [|discriminate].
  destruct (whole_at _ "nyend"); cbn [rbind]; [|discriminate]. destruct (x_forc x); [|contradiction]. intros E. injection E as <-. discriminate.
Qed.
End Runs.
