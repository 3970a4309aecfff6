(** * P_Rerun2: what a run leaves behind, and whole runs on a used instance (C96) *)
From Coq Require Import Lia.
From Verif Require Import PyBase PyBaseFacts Num M_Gas M_Forcing M_Carbon M_CarbonBack M_CarbonBox M_Driver M_Results M_BoxRun Spec_Driver Spec_Rerun P_Driver P_Driver2 P_Rerun.
From Verif Require P_Coupled2 P_Gas3.

(** ** The gas table of a run *)
Section Kept.
Context {A : Type} {N : Num A}.
Variables (p : hpam A) (conc emis nat4 nat2 : frame A).
Definition kept (st st' : hst A) : Prop := same_gases (s_gas st) (s_gas st').
Lemma kept_refl st : kept st st. Proof. apply gases_refl. Qed.
Lemma kept_trans a b c : kept a b -> kept b c -> kept a c. Proof. apply gases_trans. Qed.
Lemma dset_same (gt : dict (gas A)) t g g' : dget gt t = Some g -> same_gas t g g' -> same_gases gt (dset gt t g').
Proof.
  intros D Q. induction gt as [|[a x] gt IH]; [discriminate D|]. cbn [dget dset] in *. destruct (String.eqb a t) eqn:K.
  - apply String.eqb_eq in K. subst a. inversion D; subst x. constructor; [split; [reflexivity|exact Q]|apply gases_refl].
  - constructor; [split; [reflexivity|apply sgas_refl]|apply IH; exact D].
Qed.
Lemma k_conc_set st t y v st' : conc_set st t y v = Ok st' -> kept st st'.
Proof. unfold conc_set. destruct (dget (s_conc st) t); cbn; [|discriminate]. intros H; inversion H; subst. unfold kept; cbn [s_gas set_conc]. apply gases_refl. Qed.
Lemma k_fold {X} (f : result (hst A) -> X -> result (hst A)) : (forall e x, f (Err e) x = Err e) -> (forall st x st', f (Ok st) x = Ok st' -> kept st st') ->
  forall l st st', fold_left f l (Ok st) = Ok st' -> kept st st'.
Proof.
  intros F H l. induction l as [|x l IH]; intros st st' E; cbn [fold_left] in E; [inversion E; subst; apply kept_refl|].
  destruct (f (Ok st) x) as [s|e] eqn:Q; [eapply kept_trans; [eapply H; exact Q|apply IH; exact E]|].
  exfalso. clear -F E. induction l as [|z l IH]; cbn [fold_left] in E; [discriminate|]. rewrite F in E. auto.
Qed.
Lemma k_fill y avoid st st' : fill_one_row conc y avoid st = Ok st' -> kept st st'.
Proof.
  unfold fill_one_row. apply k_fold; [reflexivity|]. intros s t s'. cbn [rbind]. destruct (smem t avoid); [intros H; inversion H; subst; apply kept_refl|].
  destruct (dmem (fr_cols conc) t); [|apply k_conc_set]. destruct (fr_get conc t y); cbn [rbind]; [apply k_conc_set|discriminate].
Qed.
Section Carbon.
Variables (S Fb : Type) (co2 : S -> Z -> A -> Fb -> S * A).
Lemma k_co2 cc y fb st cc' st' : co2_year S Fb co2 emis cc y fb st = Ok (cc', st') -> kept st st'.
Proof.
  unfold co2_year. destruct (co2_emission emis st y); cbn [rbind]; [|discriminate]. cbv zeta.
  destruct (conc_set st "CO2" y _) as [s1|] eqn:E; cbn [rbind]; [|discriminate]. intros H; inversion H; subst. eapply k_conc_set; eauto.
Qed.
Lemma k_tracer y fb cc st t cc' st' : emi2conc_tracer S Fb co2 p conc emis nat4 nat2 y fb (Ok (cc, st)) t = Ok (cc', st') -> kept st st'.
Proof.
  unfold emi2conc_tracer. cbn [rbind]. unfold key at 1. destruct (dget (s_gas st) t) as [g|] eqn:EG; cbn [rbind]; [|discriminate].
  destruct (String.eqb (g_unit g) "-"); [intros H; inversion H; subst; apply kept_refl|].
  destruct (String.eqb t "CO2"); [apply k_co2|].
  match goal with |- (do _ <- ?e; _) = _ -> _ => destruct e as [prev|]; cbn [rbind]; [|discriminate] end. cbv zeta.
  match goal with |- (do _ <- ?e; _) = _ -> _ => destruct e as [[g' q']|] eqn:EQ; cbn [rbind]; [|discriminate] end.
  destruct (fr_get emis t y); cbn [rbind]; [|discriminate].
  match goal with |- (do _ <- ?e; _) = _ -> _ => destruct e as [s1|] eqn:E; cbn [rbind]; [|discriminate] end.
  intros H; inversion H; subst. apply k_conc_set in E. eapply kept_trans; [|exact E]. unfold kept. cbn [s_gas set_gas]. eapply dset_same; [exact EG|].
  revert EQ. destruct (String.eqb_spec t "CH4") as [T4|T4]; [|destruct (String.eqb_spec t "N2O") as [T2|T2]].
  - destruct (fr_get nat4 "CH4" y); cbn [rbind]; [|discriminate]. destruct (methane_lifetime _ _ _ _ _ _); cbn [rbind]; [|discriminate].
    intros X; inversion X; subst. constructor; try reflexivity. intros X1. destruct (X1 eq_refl).
  - destruct (fr_get nat2 "N2O" y); cbn [rbind]; [|discriminate]. intros X; inversion X; subst. constructor; try reflexivity. intros _ X1. destruct (X1 eq_refl).
  - intros X; inversion X; subst. apply sgas_refl.
Qed.
Lemma k_emi2conc y fb cc st cc' st' : emi2conc S Fb co2 p conc emis nat4 nat2 y fb cc st = Ok (cc', st') -> kept st st'.
Proof.
  unfold emi2conc. destruct (conc_run p).
  { destruct (fill_one_row conc y [] st) as [s1|] eqn:E; cbn [rbind]; [|discriminate]. intros H; inversion H; subst. eapply k_fill; eauto. }
  destruct (y <? emstart p)%Z.
  { destruct (co2_year _ _ _ _ _ _ _ _) as [[c1 s1]|] eqn:E; cbn [rbind]; [|discriminate]. cbn [fst snd].
    destruct (fill_one_row conc y ["CO2"] s1) as [s2|] eqn:E2; cbn [rbind]; [|discriminate]. intros H; inversion H; subst.
    eapply kept_trans; [eapply k_co2; eauto|eapply k_fill; eauto]. }
  assert (G : forall l cc st, fold_left (emi2conc_tracer S Fb co2 p conc emis nat4 nat2 y fb) l (Ok (cc, st)) = Ok (cc', st') -> kept st st').
  { induction l as [|t l IH]; intros c0 s0 H; cbn [fold_left] in H; [inversion H; subst; apply kept_refl|].
    match type of H with fold_left _ l ?x = _ => destruct x as [[c1 s1]|] eqn:E end.
    2:{ rewrite P_Gas3.fold_err in H by reflexivity. discriminate. }
    eapply kept_trans; [eapply k_tracer; eauto|eapply IH; eauto]. }
  intros H. apply G in H. exact H.
Qed.
End Carbon.
End Kept.

(** ** Years *)
Section Years.
Context {A : Type} {N : Num A} {T : Type} (th : thermal A T).
Variables (c : inst A) (H : Type) (e2c : H -> Z -> option (dict A) -> result H) (c2f : H -> Z -> A -> A -> result (H * (A * A * A * A))) (fl : option (list string)).
Lemma years_keep (R : H -> H -> Prop) : (forall h, R h h) -> (forall a b d, R a b -> R b d -> R a d) -> (forall h y fb h', e2c h y fb = Ok h' -> R h h') ->
  (forall h y luc sun h' q, c2f h y luc sun = Ok (h', q) -> R h h') ->
  forall ys s s' e, driver_years T th c H e2c c2f fl s ys = (s', e) -> R (l_h s) (l_h s').
Proof.
  intros R1 R2 R3 R4 ys. induction ys as [|y ys IH]; intros s s' e E; cbn [driver_years] in E; [inversion E; subst; apply R1|].
  destruct (driver_year T th c H e2c c2f fl s y) as [s1|e1] eqn:D; [|inversion E; subst; apply R1].
  eapply R2; [|eapply IH; exact E]. unfold driver_year in D.
  match type of D with rbind ?x _ = _ => destruct x as [[h [[[fn fs] f] w]]|] eqn:X; cbn [rbind] in D; [|discriminate] end.
  do 3 (match type of D with rbind ?x _ = _ => destruct x; cbn [rbind] in D; [|discriminate] end).
  match type of D with rbind ?x _ = _ => destruct x; cbn [rbind] in D; [|discriminate] end. inversion D; subst s1. cbn [l_h].
  destruct (d_rf c) as [rf|].
  - destruct (rf_forc_set c rf y); cbn [rbind] in X; [|discriminate]. inversion X; subst. apply R1.
  - destruct (e2c (l_h s) y _) as [h1|] eqn:E1; cbn [rbind] in X; [|discriminate]. destruct (iloc (d_luc c) _) as [luc|]; cbn [rbind] in X; [|discriminate].
    destruct (iloc (d_sun c) _) as [sun|]; cbn [rbind] in X; [|discriminate]. destruct (c2f h1 y luc sun) as [[h2 [[[qa qb] qc] qd]]|] eqn:E2; cbn [rbind] in X; [|discriminate].
    inversion X; subst. eapply R2; [eapply R3; exact E1|eapply R4; exact E2].
Qed.

Hypothesis DO : distinct_outputs (t_names th).
Section Two.
Variable (R : H -> H -> Prop).
Hypothesis R2C : forall a b y fb, R a b -> rres R (e2c a y fb) (e2c b y fb).
Hypothesis R2F : forall a b y luc sun, R a b -> rres (fun x x' => R (fst x) (fst x') /\ snd x = snd x') (c2f a y luc sun) (c2f b y luc sun).
Definition twin (s s' : loop A T H) : Prop :=
  l_t s = l_t s' /\ R (l_h s) (l_h s') /\ l_values s = l_values s' /\ forall o, In o (output_names (t_names th)) -> dget (l_res s) o = dget (l_res s') o.
Lemma twin_year s s' y : twin s s' -> rres twin (driver_year T th c H e2c c2f fl s y) (driver_year T th c H e2c c2f fl s' y).
Proof.
  intros (E1 & E2 & E3 & E4). unfold driver_year. rewrite E1, E3. cbv zeta.
  eapply (rres_bind (fun x x' => R (fst x) (fst x') /\ snd x = snd x')).
  { destruct (d_rf c) as [rf|].
    - eapply (rres_bind eq); [apply rres_same|]. intros q ? <-. split; [exact E2|reflexivity].
    - eapply rres_bind; [apply R2C; exact E2|]. intros h h' HR. do 2 (eapply (rres_bind eq); [apply rres_same|]; intros ? ? <-).
      eapply rres_bind; [apply R2F; exact HR|]. intros [h1 [[[a b] d] e]] [h1' q'] [Q1 Q2]. cbn [fst snd] in *. subst q'. split; [exact Q1|reflexivity]. }
  intros [h [[[fn fs] f] w]] [h' q'] [Q1 Q2]. cbn [fst snd] in *. subst q'.
  do 3 (eapply (rres_bind eq); [apply rres_same|]; intros ? ? <-).
  eapply (rres_bind (fun r r' => forall o, In o (output_names (t_names th)) -> dget r o = dget r' o)); [apply (add_year_same th e2c c2f (fun _ _ _ => Ok []) fl); assumption|].
  intros r r' RR. unfold twin; cbn. auto.
Qed.
Lemma twin_years ys : forall s s', twin s s' -> twin (fst (driver_years T th c H e2c c2f fl s ys)) (fst (driver_years T th c H e2c c2f fl s' ys)) /\
  snd (driver_years T th c H e2c c2f fl s ys) = snd (driver_years T th c H e2c c2f fl s' ys).
Proof.
  induction ys as [|y ys IH]; intros s s' S; cbn [driver_years]; [split; [exact S | reflexivity]|].
  pose proof (twin_year s s' y S) as P.
  destruct (driver_year T th c H e2c c2f fl s y) as [x|e], (driver_year T th c H e2c c2f fl s' y) as [z|e']; cbn in P; try contradiction.
  - now apply IH.
  - split; [exact S | cbn; congruence].
Qed.
Lemma twin_run_years t0 h h' r r' : R h h' -> twin (fst (run_years T th c H e2c c2f fl t0 h r)) (fst (run_years T th c H e2c c2f fl t0 h' r')) /\
  snd (run_years T th c H e2c c2f fl t0 h r) = snd (run_years T th c H e2c c2f fl t0 h' r').
Proof.
  intros HR. apply twin_years. unfold twin. cbn. split; [reflexivity|]. split; [exact HR|]. split; [reflexivity|]. intros o I. rewrite !init_arrays_get by exact DO.
  destruct (in_dec string_dec o (output_names (t_names th))); [reflexivity | contradiction].
Qed.

(** ** The end of a run *)
Variable add : H -> bool -> dict (list A) -> result (dict (frame A)).
Hypothesis RA : forall a b carbon series, R a b -> add a carbon series = add b carbon series.
Hypothesis AW : forall a carbon series fs, add a carbon series = Ok fs -> wf fs.
Lemma fs_same r r' : (forall o, In o (output_names (t_names th)) -> dget r o = dget r' o) -> feedback_series T th fl r = feedback_series T th fl r'.
Proof.
  intros HR. unfold feedback_series. destruct fl as [l|]; [|reflexivity]. f_equal. clear RA AW. induction l as [|k l IH]; [reflexivity|]. cbn [mapM]. rewrite IH.
  unfold get_first_key. destruct (filter _ (t_names th)) as [|[o v] q] eqn:F; [reflexivity|]. cbn [rbind]. unfold arr_of. rewrite (HR o); [reflexivity|].
  apply in_or_app. left. assert (X : In (o, v) (filter (fun kv => String.eqb (snd kv) k) (t_names th))) by (rewrite F; left; reflexivity).
  apply filter_In in X. apply in_map_iff. exists (o, v). split; [reflexivity|apply X].
Qed.
Definition file_names : list string := ["OHC700"; "OHCTOT"] ++ list_rib ++ list_temp ++ ["Solar_forcing"; "Volcanic_forcing_NH"; "Volcanic_forcing_SH"; "Total_forcing"].
Lemma columns_same (r r' : results A) ks : (forall k, In k ks -> arr_of k r = arr_of k r') -> columns r ks = columns r' ks.
Proof.
  intros HR. unfold columns. induction ks as [|k ks IH]; [reflexivity|]. cbn [mapM]. rewrite (HR k (or_introl eq_refl)). rewrite IH; [reflexivity|].
  intros k' I. apply HR. right. exact I.
Qed.
Lemma data_same r r' : (forall k, In k file_names -> arr_of k r = arr_of k r') -> write_data c r = write_data c r'.
Proof.
  intros HR. assert (Q : forall ks, incl ks file_names -> columns r ks = columns r' ks) by (intros ks I; apply columns_same; intros k K; apply HR, I, K).
  unfold write_data. rewrite (Q ["OHC700"; "OHCTOT"]), (Q list_rib), (Q list_temp), (Q ["Solar_forcing"; "Volcanic_forcing_NH"; "Volcanic_forcing_SH"]), (Q ["Total_forcing"]); [reflexivity|..];
    intros k K; unfold file_names; rewrite !in_app_iff; cbn in K |- *; tauto.
Qed.
Definition extends (r r' : results A) : Prop := forall k v, dget r k = Some v -> dget r' k = Some v.
Definition files_alike (r r' : results A) : Prop := forall k, In k file_names -> ~ In k (output_names (t_names th)) -> arr_of k r = arr_of k r'.
Lemma twin_run t0 h h' as_dict carbon r r' : R h h' -> extends r r' -> files_alike r r' ->
  same_outcome (run T th c H e2c c2f add fl t0 h as_dict carbon r) (run T th c H e2c c2f add fl t0 h' as_dict carbon r').
Proof.
  intros HR EX FA. unfold run. destruct (twin_run_years t0 h h' r r' HR) as [TW EE].
  destruct (run_years T th c H e2c c2f fl t0 h r) as [s e] eqn:Y1, (run_years T th c H e2c c2f fl t0 h' r') as [s' e'] eqn:Y2. cbn [fst snd] in TW, EE. subst e'.
  destruct TW as (_ & TH & _ & TR).
  assert (X1 : forall o, ~ In o (output_names (t_names th)) -> dget (l_res s) o = dget r o).
  { intros o NO. unfold run_years in Y1. rewrite (years_frame th c DO e2c c2f fl _ _ _ _ o Y1 NO). cbn [l_res]. rewrite init_arrays_get by exact DO.
    destruct (in_dec string_dec o (output_names (t_names th))); [contradiction|reflexivity]. }
  assert (X2 : forall o, ~ In o (output_names (t_names th)) -> dget (l_res s') o = dget r' o).
  { intros o NO. unfold run_years in Y2. rewrite (years_frame th c DO e2c c2f fl _ _ _ _ o Y2 NO). cbn [l_res]. rewrite init_arrays_get by exact DO.
    destruct (in_dec string_dec o (output_names (t_names th))); [contradiction|reflexivity]. }
  assert (EL : extends (l_res s) (l_res s')).
  { intros k v K. destruct (in_dec string_dec k (output_names (t_names th))) as [I|I]; [rewrite <- TR by exact I; exact K|]. rewrite X1 in K by exact I. rewrite X2 by exact I. apply EX, K. }
  assert (FL : forall k, In k file_names -> arr_of k (l_res s) = arr_of k (l_res s')).
  { intros k K. destruct (in_dec string_dec k (output_names (t_names th))) as [I|I]; [unfold arr_of; rewrite TR by exact I; reflexivity|].
    unfold arr_of. rewrite X1, X2 by exact I. apply FA; assumption. }
  destruct e as [e|]; [split; [reflexivity|]; split; [reflexivity|exact EL]|].
  destruct (d_rf c) as [rf|] eqn:RF.
  { destruct as_dict; [split; [reflexivity|]; split; [reflexivity|exact EL]|]. rewrite (data_same _ _ FL). destruct (write_data c (l_res s')) as [w e].
    split; [reflexivity|]. split; [reflexivity|exact EL]. }
  rewrite (fs_same _ _ TR). destruct (feedback_series T th fl (l_res s')) as [series|e]; [|split; [reflexivity|]; split; [reflexivity|exact EL]].
  destruct as_dict.
  - rewrite (RA _ _ carbon series TH). destruct (add (l_h s') carbon series) as [fs|e] eqn:AD; [|split; [reflexivity|]; split; [reflexivity|exact EL]].
    split; [reflexivity|]. split; [reflexivity|]. cbn [o_results]. intros k v.
    assert (WF : wf (map (fun kv => (fst kv, @Fr A (snd kv))) fs)).
    { unfold wf, dkeys. rewrite map_map. cbn [fst]. exact (AW _ _ _ _ AD). }
    rewrite !dget_dupdate by exact WF. destruct (dget (map _ fs) k); [auto|apply EL].
  - assert (W : write_output H add (l_h s) carbon series = write_output H add (l_h s') carbon series) by (unfold write_output; rewrite (RA _ _ carbon series TH); reflexivity).
    rewrite W. destruct (write_output H add (l_h s') carbon series) as [w [e|]]; [split; [reflexivity|]; split; [reflexivity|exact EL]|].
    rewrite (data_same _ _ FL). destruct (write_data c (l_res s')) as [w' e']. split; [reflexivity|]. split; [reflexivity|exact EL].
Qed.
End Two.
End Years.

(** ** Runs with any carbon cycle *)
Section Any.
Context {A : Type} {N : Num A} {T : Type} (th : thermal A T).
Hypothesis DO : distinct_outputs (t_names th).
Definition frame_names : list string := ["emissions"; "concentrations"; "forcing"; "carbon cycle"].
Definition known_by (names : dict string) (r : results A) : Prop := forall k, dget r k <> None -> In k (output_names names) \/ In k frame_names.
Local Notation known := (known_by (t_names th)).

Lemma add_names nan CC data sc (h : CC * hst A) carbon series fs : any_add_results nan CC data sc h carbon series = Ok fs ->
  wf fs /\ incl (dkeys fs) frame_names.
Proof.
  unfold any_add_results. do 3 (match goal with |- rbind ?x _ = _ -> _ => destruct x; cbn [rbind]; [|discriminate] end). cbv zeta. destruct carbon.
  - destruct (data _ _ _); cbn [rbind]; [|discriminate]. intros E; inversion E; subst. split; [apply wf_lit; reflexivity|]. apply incl_refl.
  - intros E; inversion E; subst. split; [apply wf_lit; reflexivity|]. intros k. cbn. tauto.
Qed.
Lemma run_known nan CC year data sc c gt t0 (cc0 : CC) as_dict carbon r : known r -> known (o_results (any_run nan CC year data sc th c gt t0 cc0 as_dict carbon r)).
Proof.
  intros K. unfold any_run, run. set (h0 := (cc0, _)).
  destruct (run_years T th c _ _ _ _ t0 h0 r) as [s e] eqn:Y.
  assert (KS : known (l_res s)).
  { intros k X. destruct (in_dec string_dec k (output_names (t_names th))) as [I|I]; [left; exact I|]. unfold run_years in Y.
    rewrite (years_frame th c DO _ _ _ _ _ _ _ k Y I) in X. cbn [l_res] in X. rewrite init_arrays_get in X by exact DO.
    destruct (in_dec string_dec k (output_names (t_names th))); [contradiction|]. apply K, X. }
  destruct e as [e|]; [exact KS|]. destruct (d_rf c) as [rf|].
  { destruct as_dict; [exact KS|]. destruct (write_data c (l_res s)). exact KS. }
  destruct (feedback_series _ _ _ _) as [series|]; [|exact KS]. destruct as_dict.
  - destruct (any_add_results _ _ _ _ _ _ _) as [fs|] eqn:AD; [|exact KS]. cbn [o_results]. apply add_names in AD. destruct AD as [WF IN]. intros k.
    assert (W : wf (map (fun kv => (fst kv, @Fr A (snd kv))) fs)) by (unfold wf, dkeys; rewrite map_map; exact WF).
    rewrite dget_dupdate by exact W. destruct (dget (map _ fs) k) as [x|] eqn:D; [|apply KS]. intros _. right. apply IN.
    apply dget_Some_In in D. apply in_map_iff in D. destruct D as [[k' f] [E I]]. inversion E; subst. apply in_map_iff. exists (k, f). auto.
  - destruct (write_output _ _ _ _ _) as [w [e|]]; [exact KS|]. destruct (write_data c (l_res s)). exact KS.
Qed.
Lemma run_gases nan CC year data sc c gt t0 (cc0 : CC) as_dict carbon r :
  same_gases gt (s_gas (snd (o_handler (any_run nan CC year data sc th c gt t0 cc0 as_dict carbon r)))).
Proof.
  assert (X : forall s e, run_years T th c _ (any_emi2conc CC year sc) (any_conc2forc CC sc) h_feedbacks t0 (cc0, reset_arrays (c_p sc) gt (c_erf sc)) r = (s, e) ->
     same_gases gt (s_gas (snd (l_h s)))).
  { intros s e Y. apply (years_keep th c _ _ _ _ (fun a b => kept (snd a) (snd b))) in Y; [exact Y|..].
    - intros a. apply kept_refl.
    - intros a b d. apply kept_trans.
    - intros h y fb h' E. unfold any_emi2conc in E. destruct h'. eapply k_emi2conc. exact E.
    - intros h y luc sun h' q E. unfold any_conc2forc in E. destruct (conc2forc _ _ _ _ _ _ _ _ (snd h)) as [[q' st]|] eqn:Q; cbn [rbind fst snd] in E; [|discriminate].
      inversion E; subst. cbn [snd]. unfold kept. destruct (P_Coupled2.sg_conc2forc _ _ _ _ _ _ _ _ _ _ _ Q) as [G _]. rewrite G. apply gases_refl. }
  unfold any_run, run. destruct (run_years T th c _ _ _ _ t0 _ r) as [s e] eqn:Y. specialize (X s e eq_refl).
  destruct e as [e|]; [exact X|]. destruct (d_rf c) as [rf|].
  { destruct as_dict; [exact X|]. destruct (write_data c (l_res s)). exact X. }
  destruct (feedback_series _ _ _ _) as [series|]; [|exact X]. destruct as_dict.
  - destruct (any_add_results _ _ _ _ _ _ _) as [fs|] eqn:AD; exact X.
  - destruct (write_output _ _ _ _ _) as [w [e|]]; [exact X|]. destruct (write_data c (l_res s)). exact X.
Qed.
End Any.

Section Earlier.
Context {A : Type} {N : Num A} (names : dict string).
Hypothesis DO : distinct_outputs names.
Lemma earlier_facts gt gt' r : earlier_runs names gt gt' r -> same_gases gt gt' /\ known_by names r.
Proof.
  induction 1 as [|T th gt1 r1 nan CC year data sc c t0 cc0 as_dict carbon TN HE [IG IK] o].
  - split; [apply gases_refl|]. intros k X. cbn in X. destruct (X eq_refl).
  - subst names. split; [eapply gases_trans; [exact IG|apply run_gases]|apply run_known; [exact DO|exact IK]].
Qed.
End Earlier.

Section Any2.
Context {A : Type} {N : Num A} {T : Type} (th : thermal A T).
Hypothesis DO : distinct_outputs (t_names th).
Lemma any_rerun nan CC year data sc c gt gt' t0 (cc0 cc0' : CC) E as_dict carbon r : forgets year data E -> E cc0 cc0' -> earlier_runs (t_names th) gt gt' r ->
  same_outcome (any_run nan CC year data sc th c gt t0 cc0 as_dict carbon []) (any_run nan CC year data sc th c gt' t0 cc0' as_dict carbon r).
Proof.
  intros [FY FD] EE ER. apply (earlier_facts _ DO) in ER. destruct ER as [SG KN]. unfold any_run.
  apply twin_run with (R := up CC E).
  - exact DO.
  - intros [a s] [b s'] y fb [R1 R2]. unfold any_emi2conc. cbn [fst snd] in *. apply u_emi2conc; auto.
  - intros [a s] [b s'] y luc sun [R1 R2]. unfold any_conc2forc. cbn [fst snd] in *. eapply rres_bind; [apply u_conc2forc; exact R2|].
    intros [q z] [q' z'] [Q1 Q2]. cbn [fst snd] in *. split; [split; assumption|exact Q1].
  - intros [a s] [b s'] cb series [R1 R2]. unfold any_add_results. cbn [fst snd] in *. destruct R2 as [G C F]. unfold forcing_frame, concentration_frame. rewrite F, C, (gases_keys _ _ G).
    apply rres_eq_inv. do 3 (eapply (rres_bind eq); [apply rres_same|]; intros ? ? <-). cbv zeta. destruct cb; [|apply rres_same].
    pose proof (FD a b s s' series R1 C) as Q. destruct (data a s series) as [[? ?]|], (data b s' series) as [[? ?]|]; cbn in Q |- *; congruence.
  - intros a cb series fs AD. apply add_names in AD. apply AD.
  - split; [exact EE|]. apply u_reset. exact SG.
  - intros k v X. discriminate X.
  - intros k I NI. unfold arr_of at 1. cbn [dget]. unfold arr_of. destruct (dget r k) as [x|] eqn:D; [|reflexivity].
    destruct (KN k) as [X|X]; [rewrite D; discriminate|contradiction|]. exfalso. clear -I X. unfold file_names, list_rib, list_temp in I. cbn in X, I.
    repeat (destruct X as [X|X]; [subst k; repeat (destruct I as [I|I]; [discriminate I|]); contradiction|]). contradiction.
Qed.
End Any2.

(** ** The two carbon cycles of the package *)
Section Cycles.
Context {A : Type} {N : Num A}.
Variable cp : cc_pam A.
Lemma hold_same (a b : cc_state A) n em dt : same_hold a b -> co2em2conc cp a n em dt = co2em2conc cp b n em dt.
Proof.
  intros (H1 & H2 & H3 & H4 & H5 & H6 & H7). unfold co2em2conc. assert (Q : update_temp_feedbacks cp a dt = update_temp_feedbacks cp b dt) by (unfold update_temp_feedbacks; congruence).
  rewrite Q. reflexivity.
Qed.
Lemma bisect_same call (a b : cc_state A) : same_hold a b -> forall n s target rtol mx mn guess est done,
  bisect (cc_state A) call (fun s0 s => set_hold s (get_hold s0)) n a s target rtol mx mn guess est done =
  bisect (cc_state A) call (fun s0 s => set_hold s (get_hold s0)) n b s target rtol mx mn guess est done.
Proof.
  intros (H1 & H2 & H3 & H4 & H5 & H6 & H7). assert (Q : get_hold a = get_hold b) by (unfold get_hold; congruence).
  induction n as [|n IH]; intros; cbn [bisect]; [reflexivity|]. rewrite Q. destruct (negb _); [reflexivity|]. destruct (if nltb target est then _ else _) as [[mx' mn'] g'].
  destruct (call _ g'). apply IH.
Qed.
Lemma back_same (a b : cc_state A) series : same_hold a b ->
  snd (back_calculate cp a series) = snd (back_calculate cp b series) /\ same_hold (fst (back_calculate cp a series)) (fst (back_calculate cp b series)).
Proof.
  intros H. unfold back_calculate. generalize (ffer_series_conc cp (map fst series) (map snd series)) as w. intros w. destruct series as [|[conc dt] l]; [split; [reflexivity|exact H]|].
  cbn [back_years]. unfold guess_emissions. destruct (initial_max_min_guess _ _ _) as [mx mn]. rewrite (hold_same a b _ _ _ H).
  destruct (co2em2conc cp b 0 _ dt) as [s est]. rewrite (bisect_same _ a b H). split; [reflexivity|]. repeat split.
Qed.
Lemma default_forgets nan sc : forgets (co2em2conc cp) (carbon_data nan cp (c_p sc) (c_emis sc)) same_hold.
Proof.
  constructor.
  - intros a b n em dt H. rewrite (hold_same a b _ _ _ H). split; [reflexivity|]. repeat split.
  - intros a b st st' series H C. unfold carbon_data. rewrite C. destruct (key "CO2" _) as [d|]; [|reflexivity]. cbn [rbind].
    assert (O : forall crun conc, rbind (carbon_output nan cp a (years_of (c_p sc)) crun conc series) (fun r => Ok (snd r)) =
      rbind (carbon_output nan cp b (years_of (c_p sc)) crun conc series) (fun r => Ok (snd r))).
    { intros crun conc. unfold carbon_output. destruct (dget series "dtemp") as [dt|]; [|reflexivity]. cbn [rbind]. destruct crun.
      - destruct (back_same a b (combine conc dt) H) as [B1 B2]. destruct (back_calculate cp a (combine conc dt)) as [h l], (back_calculate cp b (combine conc dt)) as [h' l']. cbn [fst snd] in B1, B2. subst l'.
        destruct B2 as (_ & _ & B3 & _ & B5 & _). unfold ocean_flux. rewrite B3. destruct (make_frame _ _) as [f|]; [|reflexivity]. cbn [rbind].
        destruct (set_col f _ _) as [f1|]; [|reflexivity]. cbn [rbind]. destruct (set_col f1 _ _); reflexivity.
      - destruct H as (_ & _ & B3 & _ & B5 & _). unfold ocean_flux. rewrite B3, B5. destruct (make_frame _ _); reflexivity. }
    destruct (conc_run (c_p sc)); [apply O|]. destruct (mapM _ _) as [ff|]; [|reflexivity]. cbn [rbind]. destruct (mapM _ _) as [af|]; [|reflexivity]. cbn [rbind].
    specialize (O false (map snd d)). destruct (carbon_output nan cp a _ _ _ _) as [[? f]|], (carbon_output nan cp b _ _ _ _) as [[? f']|]; cbn [rbind fst snd] in O |- *; try discriminate; [|exact O].
    inversion O; subst. destruct (set_col f' _ _); reflexivity.
Qed.
Lemma reset_same (a b : cc_state A) : same_hold (cc_reset cp a) (cc_reset cp b).
Proof. repeat split. Qed.
Lemma box_forgets nan bp sc : forgets (fun (s : box_state A) (_ : nat) em dt => box_year bp s em dt) (box_data nan bp sc) eq.
Proof.
  constructor; [intros a b n em dt ->; auto|]. intros a b st st' series -> C. unfold box_data. rewrite C. destruct (key "CO2" _); [|reflexivity]. cbn [rbind].
  destruct (conc_run (c_p sc)); reflexivity.
Qed.
End Cycles.

Section Final.
Context {A : Type} {N : Num A} {T : Type} (th : thermal A T).
Lemma default_rerun nan cp sc c gt gt' t0 cc cc' as_dict carbon r : distinct_outputs (t_names th) -> earlier_runs (t_names th) gt gt' r ->
  same_outcome (coupled_run nan cp sc th c gt t0 (cc_reset cp cc) as_dict carbon []) (coupled_run nan cp sc th c gt' t0 (cc_reset cp cc') as_dict carbon r).
Proof.
  intros DO ER. exact (any_rerun th DO nan (cc_state A) (co2em2conc cp) (carbon_data nan cp (c_p sc) (c_emis sc)) sc c gt gt' t0 _ _ same_hold as_dict carbon r
    (default_forgets cp nan sc) (reset_same cp cc cc') ER).
Qed.
Lemma box_rerun nan bp sc c gt gt' t0 as_dict carbon r : distinct_outputs (t_names th) -> earlier_runs (t_names th) gt gt' r ->
  same_outcome (box_coupled_run nan bp sc th c gt t0 as_dict carbon []) (box_coupled_run nan bp sc th c gt' t0 as_dict carbon r).
Proof. intros DO ER. unfold box_coupled_run. eapply (any_rerun th DO); [apply box_forgets|reflexivity|exact ER]. Qed.
Lemma used_default nan cp sc c gt t0 cc as_dict carbon : let o := coupled_run nan cp sc th c gt t0 cc as_dict carbon [] in
  earlier_runs (t_names th) gt (s_gas (snd (o_handler o))) (o_results o).
Proof. exact (one_more_run (t_names th) gt T th gt [] nan (cc_state A) (co2em2conc cp) (carbon_data nan cp (c_p sc) (c_emis sc)) sc c t0 cc as_dict carbon eq_refl (no_run _ gt)). Qed.
End Final.
