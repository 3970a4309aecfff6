(** * P_Warm5: the upwelling-diffusion ocean in two runs that differ in CO2 only (C109) *)
From Coq Require Import Reals Lra Lia.
From Verif Require Import PyBase PyBaseFacts Num M_Gas M_TwoLayer M_UDM M_Forcing M_Carbon M_Driver M_Results M_BoxRun Spec_Gas Spec_Coupled Spec_Driver Spec_Reader Spec_Results Spec_TwoLayer Spec_UDM Spec_UDMRuns Spec_Warm
  P_Climate P_Warm P_Driver P_Driver2 P_Driver3 P_Driver4 P_Results P_Coupled P_Coupled2 P_AnyCarbon P_Warm2 P_Warm3.
From Verif Require P_UDM6 P_UDM8 P_UDM10.
Open Scope R_scope.

Definition ohc_shown (o : ud_out R) : R := match y_ohc700 o with Some h => h | None => 0 end.
Definition ud_shown (o : ud_out R) : dict R := ud_values o (ohc_shown o).
Section Ocean.
Variables (up : ud_pam R) (c : inst R) (H : Type) (e2c : H -> Z -> option (dict R) -> result H) (c2f : H -> Z -> R -> R -> result (H * (R * R * R * R))).
Lemma ud_years fl m : d_rf c = None -> forall s n s',
  driver_years (ud_state R) (ud_thermal up) c H e2c c2f fl s (zrange (d_start c + Z.of_nat n) m) = (s', None) ->
  exists tr l ins, steps (ud_thermal up) c e2c c2f fl s n tr s' /\ List.length tr = m /\ htrace c e2c c2f n (l_h s) l (l_h s') /\ List.length l = m /\ List.length ins = m /\
    map fst tr = map ud_shown (ud_run up (l_t s) ins) /\ map snd tr = map total_of l /\
    forall k x i, nth_error l k = Some x -> nth_error ins k = Some i -> fed c x (n + k) i.
Proof.
  intros RF. induction m as [|m IH]; intros s n s' E.
  - cbn in E. injection E as <-. exists [], [], []. split; [constructor|]. split; [reflexivity|]. split; [constructor|]. repeat (split; [reflexivity|]). intros [|k] x i E; discriminate E.
  - rewrite zrange_S in E. cbn [driver_years] in E.
    destruct (driver_year _ (ud_thermal up) c H e2c c2f fl s (d_start c + Z.of_nat n)%Z) as [s1|e] eqn:D; [|discriminate].
    replace (d_start c + Z.of_nat n + 1)%Z with (d_start c + Z.of_nat (S n))%Z in E by lia.
    destruct (IH _ _ _ E) as (tr & l & ins & X1 & X2 & X3 & X4 & X5 & X6 & X7 & X8).
    destruct (year_parts (ud_thermal up) c e2c c2f fl _ _ _ D) as (v & f & i & h & TY & V & Hh & AY & B1 & B2 & P). rewrite RF in P. rewrite row_of in *.
    destruct P as (h1 & luc & sun & P1 & P2 & P3 & P4). subst h.
    exists ((v, f) :: tr), ((feedback_arg fl (l_values s), luc, sun, (f, i_nh i, i_sh i, i_w i)) :: l), (i :: ins).
    split; [econstructor; eassumption|]. split; [cbn; lia|]. split; [econstructor; eassumption|]. split; [cbn; lia|]. split; [cbn; lia|].
    cbn [ud_thermal t_year] in TY. destruct (ud_year up (l_t s) i) as [t o] eqn:TE. destruct (y_ohc700 o) as [oh|] eqn:OH; [|discriminate TY]. injection TY as T1 T2. split; [|split].
    + cbn [map fst ud_run]. rewrite TE. cbn [map]. rewrite X6, <- T1, <- T2. unfold ud_shown at 2, ohc_shown. rewrite OH. reflexivity.
    + cbn [map snd]. rewrite X7. reflexivity.
    + intros [|k] x j E1 E2; cbn [nth_error] in E1, E2.
      * injection E1 as <-. injection E2 as <-. rewrite Nat.add_0_r. split; [reflexivity|split; assumption].
      * rewrite <- plus_n_Sm. apply (X8 k x j E1 E2).
Qed.
End Ocean.
Definition ud_read : list (string * (ud_out R -> R)) :=
  [("dT_glob", y_dtemp); ("dT_NH", y_nh); ("dT_SH", y_sh); ("dT_glob_air", y_air); ("dT_NH_air", y_air_n); ("dT_SH_air", y_air_s);
   ("dT_glob_sea", y_sea); ("dT_NH_sea", y_sea_n); ("dT_SHsea", y_sea_s); ("OHC700", ohc_shown); ("OHCTOT", y_ohctot)].
Lemma ud_columns (c : inst R) tr r outs o g : complete ud_names c tr r -> map fst tr = map ud_shown outs -> In (o, g) ud_read -> dget r o = Some (Arr (map g outs)).
Proof.
  intros C E I. assert (L : List.length outs = List.length tr) by (rewrite <- (map_length ud_shown outs), <- E, map_length; reflexivity).
  assert (CELL : forall n v f b, nth_error tr n = Some (v, f) -> nth_error outs n = Some b -> v = ud_shown b).
  { intros n v f b X Y. apply map_fst_nth in X. rewrite E, nth_error_map, Y in X. cbn in X. congruence. }
  eapply (column_of ud_names c tr r o g outs C); [|exact L|].
  - unfold ud_read in I. cbn [In] in I. repeat (destruct I as [I|I]; [injection I as <- _; cbn; tauto|]). destruct I.
  - intros n v f b X Y. rewrite (CELL n v f b X Y). unfold ud_read in I. cbn [In] in I. repeat (destruct I as [I|I]; [injection I as <- <-; reflexivity|]). destruct I.
Qed.

(** ** Order of two sequences of years *)
Lemma ud_unw_year p s i : delta_aero p = 0 -> ud_year p s i = ud_year p s (unweighted i).
Proof.
  intros D. unfold ud_year, unweighted. cbn [i_w i_nh i_sh i_vn i_vs]. unfold ud_set_feedback. rnum. rewrite D. destruct (Req_EM_T 0 0) as [_|X]; [reflexivity|destruct (X eq_refl)].
Qed.
Lemma ud_unw_run p ins : delta_aero p = 0 -> forall s, ud_run p s ins = ud_run p s (map unweighted ins).
Proof. intros D. induction ins as [|i r IH]; intros s; [reflexivity|]. cbn [ud_run map]. rewrite <- ud_unw_year by exact D. destruct (ud_year p s i). rewrite IH. reflexivity. Qed.
Lemma ud_run_firstn p : forall m ins s, ud_run p s (firstn m ins) = firstn m (ud_run (A := R) p s ins).
Proof. induction m as [|m IH]; intros ins s; [reflexivity|]. destruct ins as [|i r]; [reflexivity|]. cbn [firstn ud_run]. destruct (ud_year p s i). cbn [firstn]. rewrite IH. reflexivity. Qed.
Lemma list_fun {B} (d : B) (l : list B) : l = map (fun n => nth n l d) (seq 0 (List.length l)).
Proof. induction l as [|x l IH]; [reflexivity|]. cbn [List.length seq map nth]. f_equal. rewrite IH at 1. rewrite <- seq_shift, map_map. reflexivity. Qed.
Lemma Some_inj {B} (x y : B) : Some x = Some y -> x = y. Proof. congruence. Qed.
Definition some_year : tl_in R := {| i_w := 0; i_nh := 0; i_sh := 0; i_vn := []; i_vs := [] |}.
Lemma heat_mono ds : Forall (Rle 0) ds -> forall z ts ts', Forall2 Rle ts ts' -> column_heat z ds ts <= column_heat z ds ts'.
Proof.
  induction 1 as [|d ds D _ IH]; intros z ts ts' F; [apply Rle_refl|]. destruct F as [|t t' ts ts' L F]; [apply Rle_refl|]. cbn [column_heat].
  apply Rplus_le_compat; [|apply IH; exact F]. apply Rmult_le_compat_l; [|exact L]. apply Rmin_glb; [exact D|apply Rmax_l].
Qed.
Lemma column_mono p x x' y y' : 0 <= foan p -> 0 <= foas p -> Forall2 Rle x x' -> Forall2 Rle y y' -> Forall2 Rle (mean_column p x y) (mean_column p x' y').
Proof.
  intros A B F G. apply nth_Forall2; [unfold mean_column, tab; rewrite !map_length; reflexivity|]. intros k u v E E'. unfold mean_column, tab in E, E'. rewrite nth_error_map in E, E'.
  destruct (nth_error (seq 0 (lm p)) k) as [i|]; [|discriminate E]. cbn [option_map] in *. injection E as <-. injection E' as <-.
  assert (Q : forall a b : list R, Forall2 Rle a b -> forall j, nth j a 0 <= nth j b 0).
  { induction 1 as [|s t a b L _ IH]; intros [|j]; cbn; try lra. apply IH. }
  apply Rplus_le_compat; apply Rmult_le_compat_l; auto.
Qed.
Lemma year_ohc p s i : y_ohc700 (snd (ud_year p s i)) = ohc700 p (y_tn (snd (ud_year p s i))) (y_ts (snd (ud_year p s i))).
Proof. reflexivity. Qed.
Lemma ud_order p M (ins ins' : list (tl_in R)) : calm_upwelling p -> List.length ins = List.length ins' ->
  (forall k i i', (k <= M)%nat -> nth_error ins k = Some i -> nth_error ins' k = Some i' -> i_nh i <= i_nh i' /\ i_sh i <= i_sh i' /\ i_vn i = i_vn i' /\ i_vs i = i_vs i') ->
  forall k o o', (k <= M)%nat -> nth_error (ud_run p (ud_init p) ins) k = Some o -> nth_error (ud_run p (ud_init p) ins') k = Some o' -> out_le o o' /\ ohc_shown o <= ohc_shown o'.
Proof.
  intros [AD ST TH DE LA MI LM] L I k o o' Lk Q Q'.
  rewrite <- (nth_firstn _ (S M)) in Q by lia. rewrite <- (nth_firstn _ (S M)) in Q' by lia. rewrite <- ud_run_firstn, ud_unw_run in Q by exact DE. rewrite <- ud_run_firstn, ud_unw_run in Q' by exact DE.
  set (a := map unweighted (firstn (S M) ins)) in *. set (b := map unweighted (firstn (S M) ins')) in *.
  assert (LA' : List.length a = List.length b) by (unfold a, b; rewrite !map_length, !firstn_length; lia).
  set (f := fun n => nth n a some_year). set (g := fun n => nth n b some_year).
  assert (Kk : (k < List.length a)%nat) by (rewrite <- (ud_run_len p a (ud_init p)); apply nth_error_Some; congruence).
  rewrite (list_fun some_year a) in Q. rewrite (list_fun some_year b), <- LA' in Q'. fold f in Q. fold g in Q'.
  rewrite P_UDM10.ud_states_run in Q by exact Kk. rewrite P_UDM10.ud_states_run in Q' by exact Kk. apply Some_inj in Q, Q'. subst o o'.
  assert (IN : forall n, in_le (f n) (g n) /\ 0 <= feedback p (i_w (f n))).
  { intros n. split.
    - unfold f, g. destruct (le_lt_dec (List.length a) n) as [X|X].
      + rewrite !nth_overflow by lia. repeat split; try apply Rle_refl; constructor.
      + assert (Lm : (n <= M)%nat) by (unfold a in X; rewrite map_length, firstn_length in X; lia).
        assert (Ln : (n < List.length ins)%nat) by (unfold a in X; rewrite map_length, firstn_length in X; lia).
        destruct (nth_error ins n) as [i|] eqn:E1; [|apply nth_error_None in E1; lia]. destruct (nth_error ins' n) as [i'|] eqn:E2; [|apply nth_error_None in E2; lia].
        rewrite (nth_error_nth a n some_year (x := unweighted i)) by (unfold a; rewrite nth_error_map, nth_firstn, E1 by lia; reflexivity).
        rewrite (nth_error_nth b n some_year (x := unweighted i')) by (unfold b; rewrite nth_error_map, nth_firstn, E2 by lia; reflexivity).
        destruct (I n i i' Lm E1 E2) as (I1 & I2 & I3 & I4). unfold in_le, unweighted. cbn [i_w i_nh i_sh i_vn i_vs]. rewrite I3, I4. repeat split; try assumption; apply P_UDM8.Forall2_refl.
    - unfold feedback. rewrite DE. destruct (Req_EM_T 0 0) as [_|X]; [|destruct (X eq_refl)]. left. apply Rdiv_lt_0_compat; lra. }
  assert (OL := P_UDM8.states_mono p AD ST TH f g IN k). split; [exact OL|]. destruct OL as (T1 & T2 & _). unfold profile_le in T1, T2.
  unfold ohc_shown. rewrite !year_ohc. assert (A := AD). destruct A as [_ _ A3 _ _ A6 A7 _ _]. rewrite !P_UDM6.ohc700_exact by (lra || exact LM).
  apply Rmult_le_compat_l; [unfold ohc_unit; lra|]. apply heat_mono; [|apply column_mono; [lra|lra|exact T1|exact T2]].
  unfold layers. constructor; [lra|]. apply Forall_forall. intros q J. apply repeat_spec in J. lra.
Qed.

Section Both.
Variables (nan : R) (CC CC' : Type) (year : CC -> nat -> R -> R -> CC * R) (year' : CC' -> nat -> R -> R -> CC' * R)
  (data : CC -> hst R -> dict (list R) -> result (CC * frame R)) (data' : CC' -> hst R -> dict (list R) -> result (CC' * frame R))
  (sc sc' : scenario R) (c : inst R) (gt : dict (gas R)) (cc0 : CC) (cc0' : CC').
Notation p := (c_p sc).
Hypothesis BF : but_for_co2 sc sc'.
Hypothesis PT : plain_table gt (c_erf sc) (c_pc sc).
Hypothesis RF : d_rf c = None.
Hypothesis DS : d_start c = nystart p.
Hypothesis DE : d_end c = nyend p.

Lemma c109_upwelling up carbon carbon' r r' out out' M co2 co2' n2o :
  any_run nan CC year data sc (ud_thermal up) c gt (ud_init up) cc0 true carbon r = out -> any_run nan CC' year' data' sc' (ud_thermal up) c gt (ud_init up) cc0' true carbon' r' = out' ->
  o_exn out = None -> o_exn out' = None ->
  in_frame (o_results out) "concentrations" "CO2" co2 -> in_frame (o_results out') "concentrations" "CO2" co2' -> in_frame (o_results out) "concentrations" "N2O" n2o ->
  more_co2 M co2 co2' n2o -> calm_upwelling up ->
  forall o, In o ["dT_glob"; "dT_NH"; "dT_SH"; "dT_glob_air"; "dT_NH_air"; "dT_SH_air"; "dT_glob_sea"; "dT_NH_sea"; "dT_SHsea"; "OHC700"; "OHCTOT"] ->
  exists w w', in_array (o_results out) o w /\ in_array (o_results out') o w' /\ List.length w = d_years c /\ upto_le M w w'.
Proof.
  intros E E' X X' C1 C2 C3 MO CA o IO. assert (DS2 := DS' sc sc' c BF DS). assert (DE2 := DE' sc sc' c BF DE). assert (PT2 := PT' sc sc' gt BF PT).
  assert (NO : forall q, In q (output_names (t_names (ud_thermal up))) -> ~ In q ["emissions"; "concentrations"; "forcing"; "carbon cycle"]).
  { intros q I. cbn in I. repeat (destruct I as [<-|I]; [intros [J|[J|[J|[J|[]]]]]; discriminate J|]). destruct I. }
  destruct (shown nan CC year data sc c gt cc0 RF DS DE PT _ (ud_thermal up) (ud_init up) carbon r out E X NO) as (s & RY & O1 & O2).
  destruct (shown nan CC' year' data' sc' c gt cc0' RF DS2 DE2 PT2 _ (ud_thermal up) (ud_init up) carbon' r' out' E' X' NO) as (s' & RY' & O1' & O2').
  unfold run_years, year_list in RY, RY'. rewrite <- (Z.add_0_r (d_start c)) in RY, RY' at 1.
  destruct (ud_years up c _ _ _ _ _ RF _ 0%nat _ RY) as (tr & l & ins & X1 & X2 & X3 & X4 & X5 & X6 & X7 & X8).
  destruct (ud_years up c _ _ _ _ _ RF _ 0%nat _ RY') as (tr' & l' & ins' & Y1 & Y2 & Y3 & Y4 & Y5 & Y6 & Y7 & Y8). cbn [l_h l_t plus] in *.
  assert (FC : complete (t_names (ud_thermal up)) c tr (l_res s)).
  { eapply filled_complete; [|exact X2]. change tr with ([] ++ tr). eapply (steps_filled (ud_thermal up) c ud_distinct); [exact X1 | reflexivity | apply (filled_init (ud_thermal up)) | cbn; lia]. }
  assert (FC' : complete (t_names (ud_thermal up)) c tr' (l_res s')).
  { eapply filled_complete; [|exact Y2]. change tr' with ([] ++ tr'). eapply (steps_filled (ud_thermal up) c ud_distinct); [exact Y1 | reflexivity | apply (filled_init (ud_thermal up)) | cbn; lia]. }
  destruct (any_past CC year sc c _ _ _ _ X3 DS) as (K1 & _ & K2 & _). destruct (any_past CC' year' sc' c _ _ _ _ Y3 DS2) as (K1' & _ & K2' & _). cbn [snd] in *.
  destruct (O2 K1 K2 "CO2" ltac:(cbn; tauto)) as (a & A1 & A2 & A3). destruct (O2 K1 K2 "N2O" ltac:(cbn; tauto)) as (b & B1 & B2 & B3). destruct (O2' K1' K2' "CO2" ltac:(cbn; tauto)) as (d & D1 & D2 & D3).
  assert (a = co2) by (eapply in_frame_fun; eassumption). assert (b = n2o) by (eapply in_frame_fun; eassumption). assert (d = co2') by (eapply in_frame_fun; eassumption). subst a b d.
  rewrite (bf_p _ _ BF) in D3.
  assert (RO := ud_order up M ins ins' CA ltac:(congruence)).
  assert (IN : forall k i i', (k <= M)%nat -> nth_error ins k = Some i -> nth_error ins' k = Some i' -> i_nh i <= i_nh i' /\ i_sh i <= i_sh i' /\ i_vn i = i_vn i' /\ i_vs i = i_vs i').
  { intros k i i' Lk Q Q'. assert (Kk : (k < d_years c)%nat) by (rewrite <- X5; apply nth_error_Some; congruence).
    destruct (nth_error l k) as [y|] eqn:LN; [|apply nth_error_None in LN; lia]. destruct (nth_error l' k) as [y'|] eqn:LN'; [|apply nth_error_None in LN'; lia].
    destruct (X8 k y i LN Q) as (U1 & U2 & U3). destruct (Y8 k y' i' LN' Q') as (W1 & W2 & W3).
    destruct (rows CC CC' year year' data data' sc sc' c gt cc0 cc0' BF PT DS l l' _ _ co2 co2' n2o M X3 Y3 X4 Y4 A3 D3 B3 MO k y y' Lk LN LN') as (gc & v & v' & R1 & R2 & R3 & R4 & R5 & R6 & _ & _ & _ & R7 & R8).
    rewrite U1, W1 in R7, R8. cbn [fst snd] in R7, R8.
    assert (0 <= 4 / 10 ^ 4 * g_sarf gc * (v' - v)) by (apply Rmult_le_pos; [apply Rmult_le_pos; [cbn [pow]; lra|exact R2]|lra]).
    split; [lra|]. split; [lra|]. split; congruence. }
  specialize (RO IN).
  assert (RD : exists g, In (o, g) ud_read /\ forall q q', out_le q q' /\ ohc_shown q <= ohc_shown q' -> g q <= g q').
  { unfold ud_read. cbn [In] in IO. repeat (destruct IO as [<-|IO]; [eexists; split; [cbn [In]; tauto|intros q q' [U V]; unfold out_le in U; tauto]|]). destruct IO. }
  destruct RD as (g & RI & RM).
  assert (OO : In o (output_names (t_names (ud_thermal up)))) by (cbn [In] in IO |- *; repeat (destruct IO as [<-|IO]; [cbn; tauto|]); destruct IO).
  exists (map g (ud_run up (ud_init up) ins)), (map g (ud_run up (ud_init up) ins')).
  split; [unfold in_array; rewrite O1 by exact OO; apply (ud_columns c tr _ _ o g FC X6 RI)|]. split; [unfold in_array; rewrite O1' by exact OO; apply (ud_columns c tr' _ _ o g FC' Y6 RI)|].
  split; [rewrite map_length, ud_run_len; exact X5|]. split; [rewrite !map_length, !ud_run_len; congruence|].
  intros k x x' Lk Q Q'. rewrite nth_error_map in Q, Q'. destruct (nth_error (ud_run up (ud_init up) ins) k) as [q|] eqn:QN; [|discriminate Q]. destruct (nth_error (ud_run up (ud_init up) ins') k) as [q'|] eqn:QN'; [|discriminate Q'].
  injection Q as <-. injection Q' as <-. apply RM. exact (RO k q q' Lk QN QN').
Qed.
End Both.
