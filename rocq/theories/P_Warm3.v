(** * P_Warm3: temperature of two runs that differ in CO2 only (C109) *)
From Coq Require Import Reals Lra Lia.
From Verif Require Import PyBase PyBaseFacts Num M_Gas M_TwoLayer M_Forcing M_Carbon M_Driver M_Results M_BoxRun Spec_Gas Spec_Coupled Spec_Driver Spec_Reader Spec_Results Spec_TwoLayer Spec_TwoLayerOrder Spec_Warm
  P_Climate P_Warm P_Driver P_Driver2 P_Driver3 P_Driver4 P_Results P_Coupled P_Coupled2 P_AnyCarbon P_TwoLayer P_TwoLayerOrder P_Warm2 P_Climate2.
From Verif Require P_Forc4 P_Input2 P_Gas2.
Open Scope R_scope.

(** ** The two-layer ocean in a coupled run *)
Section Ocean.
Context {A : Type} {N : Num A}.
Variables (tp : tl_pam A) (c : inst A) (H : Type) (e2c : H -> Z -> option (dict A) -> result H) (c2f : H -> Z -> A -> A -> result (H * (A * A * A * A))).
Definition fed (x : option (dict A) * A * A * (A * A * A * A)) (n : nat) (i : tl_in A) : Prop :=
  snd x = (total_of x, i_nh i, i_sh i, i_w i) /\ nth_error (d_vn c) n = Some (i_vn i) /\ nth_error (d_vs c) n = Some (i_vs i).
Lemma tl_years fl m : d_rf c = None -> forall s n s',
  driver_years (tl_state A) (tl_thermal tp) c H e2c c2f fl s (zrange (d_start c + Z.of_nat n) m) = (s', None) ->
  exists tr l ins, steps (tl_thermal tp) c e2c c2f fl s n tr s' /\ List.length tr = m /\ htrace c e2c c2f n (l_h s) l (l_h s') /\ List.length l = m /\ List.length ins = m /\
    map fst tr = map tl_values (tl_run tp (l_t s) ins) /\ map snd tr = map total_of l /\
    forall k x i, nth_error l k = Some x -> nth_error ins k = Some i -> fed x (n + k) i.
Proof.
  intros RF. induction m as [|m IH]; intros s n s' E.
  - cbn in E. injection E as <-. exists [], [], []. split; [constructor|]. split; [reflexivity|]. split; [constructor|]. repeat (split; [reflexivity|]). intros [|k] x i E; discriminate E.
  - rewrite zrange_S in E. cbn [driver_years] in E.
    destruct (driver_year _ (tl_thermal tp) c H e2c c2f fl s (d_start c + Z.of_nat n)%Z) as [s1|e] eqn:D; [|discriminate].
    replace (d_start c + Z.of_nat n + 1)%Z with (d_start c + Z.of_nat (S n))%Z in E by lia.
    destruct (IH _ _ _ E) as (tr & l & ins & X1 & X2 & X3 & X4 & X5 & X6 & X7 & X8).
    destruct (year_parts (tl_thermal tp) c e2c c2f fl _ _ _ D) as (v & f & i & h & TY & V & Hh & AY & B1 & B2 & P). rewrite RF in P. rewrite row_of in *.
    destruct P as (h1 & luc & sun & P1 & P2 & P3 & P4). subst h.
    exists ((v, f) :: tr), ((feedback_arg fl (l_values s), luc, sun, (f, i_nh i, i_sh i, i_w i)) :: l), (i :: ins).
    split; [econstructor; eassumption|]. split; [cbn; lia|]. split; [econstructor; eassumption|]. split; [cbn; lia|]. split; [cbn; lia|].
    cbn [tl_thermal t_year] in TY. destruct (tl_year tp (l_t s) i) as [t o] eqn:TE. injection TY as T1 T2. split; [|split].
    + cbn [map fst tl_run]. rewrite TE. cbn [map]. rewrite X6, <- T1, <- T2. reflexivity.
    + cbn [map snd]. rewrite X7. reflexivity.
    + intros [|k] x j E1 E2; cbn [nth_error] in E1, E2.
      * injection E1 as <-. injection E2 as <-. rewrite Nat.add_0_r. split; [reflexivity|split; assumption].
      * rewrite <- plus_n_Sm. apply (X8 k x j E1 E2).
Qed.
End Ocean.
Definition tl_read : list (string * (tl_out R -> R)) :=
  [("dT_glob", o_dtemp); ("OHC_MIXED", o_OHC_MIXED); ("OHC_DEEP", o_OHC_DEEP); ("OHC700", o_OHC700); ("OHCTOT", o_OHCTOT); ("dT_fast", o_fast); ("dT_slow", o_slow)].
Lemma tl_columns (c : inst R) tr r outs o g : complete tl_names c tr r -> map fst tr = map tl_values outs -> In (o, g) tl_read -> dget r o = Some (Arr (map g outs)).
Proof.
  intros C E I. assert (L : List.length outs = List.length tr) by (rewrite <- (map_length tl_values outs), <- E, map_length; reflexivity).
  assert (CELL : forall n v f b, nth_error tr n = Some (v, f) -> nth_error outs n = Some b -> v = tl_values b).
  { intros n v f b X Y. apply map_fst_nth in X. rewrite E, nth_error_map, Y in X. cbn in X. congruence. }
  eapply (column_of tl_names c tr r o g outs C); [|exact L|].
  - unfold tl_read in I. cbn [In] in I. repeat (destruct I as [I|I]; [injection I as <- _; cbn; tauto|]). destruct I.
  - intros n v f b X Y. rewrite (CELL n v f b X Y). unfold tl_read in I. cbn [In] in I. repeat (destruct I as [I|I]; [injection I as <- <-; reflexivity|]). destruct I.
Qed.

(** ** Without a dependence on aerosols the weight does not matter *)
Definition unweighted (i : tl_in R) : tl_in R := {| i_w := 0; i_nh := i_nh i; i_sh := i_sh i; i_vn := i_vn i; i_vs := i_vs i |}.
Lemma unw_year tp s i : tl_delta tp = 0 -> tl_year tp s i = tl_year tp s (unweighted i).
Proof.
  intros D. unfold tl_year, unweighted. cbn [i_w i_nh i_sh i_vn i_vs]. f_equal. unfold tl_set_feedback. rewrite D. f_equal. rnum. ring.
Qed.
Lemma unw_run tp ins : tl_delta tp = 0 -> forall s, tl_run tp s ins = tl_run tp s (map unweighted ins).
Proof. intros D. induction ins as [|i r IH]; intros s; [reflexivity|]. cbn [tl_run map]. rewrite <- unw_year by exact D. destruct (tl_year tp s i). rewrite IH. reflexivity. Qed.
Lemma run_firstn tp : forall m ins s, tl_run tp s (firstn m ins) = firstn m (tl_run (A := R) tp s ins).
Proof. induction m as [|m IH]; intros ins s; [reflexivity|]. destruct ins as [|i r]; [reflexivity|]. cbn [firstn tl_run]. destruct (tl_year tp s i). cbn [firstn]. rewrite IH. reflexivity. Qed.
Lemma nth_firstn {B} (l : list B) : forall m k, (k < m)%nat -> nth_error (firstn m l) k = nth_error l k.
Proof. induction l as [|x l IH]; intros [|m] k L; try lia; destruct k; try reflexivity. cbn. apply IH. lia. Qed.
Lemma nth_Forall2 {B C} (P : B -> C -> Prop) l : forall l', List.length l = List.length l' -> (forall k x y, nth_error l k = Some x -> nth_error l' k = Some y -> P x y) -> Forall2 P l l'.
Proof.
  induction l as [|x l IH]; intros [|y l'] L H; try discriminate L; constructor; [apply (H 0%nat); reflexivity|]. apply IH; [cbn in L; lia|]. intros k a b. apply (H (S k)).
Qed.
Lemma Forall2_nth {B C} (P : B -> C -> Prop) l l' : Forall2 P l l' -> forall k x y, nth_error l k = Some x -> nth_error l' k = Some y -> P x y.
Proof. induction 1 as [|a b l l' Q _ IH]; intros [|k] x y X Y; try discriminate; cbn in X, Y; [congruence|]. eapply IH; eassumption. Qed.
Lemma run_order tp M (ins ins' : list (tl_in R)) : calm_ocean tp -> List.length ins = List.length ins' ->
  (forall k i i', (k <= M)%nat -> nth_error ins k = Some i -> nth_error ins' k = Some i' -> List.length (i_vn i) = List.length (i_vs i) /\ List.length (i_vn i') = List.length (i_vs i') /\ year_forcing i <= year_forcing i') ->
  forall k o o', (k <= M)%nat -> nth_error (tl_run tp (tl_init tp) ins) k = Some o -> nth_error (tl_run tp (tl_init tp) ins') k = Some o' -> out_le o o'.
Proof.
  intros [D K F B] L I k o o' Lk O O'. rewrite <- (nth_firstn _ (S M)) in O by lia. rewrite <- (nth_firstn _ (S M)) in O' by lia. rewrite <- run_firstn, unw_run in O by exact D. rewrite <- run_firstn, unw_run in O' by exact D.
  refine (Forall2_nth out_le _ _ _ k o o' O O'). apply order; [exact F|exact K| | |constructor; apply Rle_refl].
  - apply Forall_forall. intros x _. apply B.
  - apply nth_Forall2; [rewrite !map_length, !firstn_length; lia|]. intros j x y X Y. rewrite nth_error_map in X, Y.
    assert (Lj : (j < S M)%nat).
    { destruct (nth_error (firstn (S M) ins) j) eqn:Q; [|discriminate X]. assert (Z : (j < List.length (firstn (S M) ins))%nat) by (apply nth_error_Some; congruence). rewrite firstn_length in Z. lia. }
    rewrite nth_firstn in X, Y by exact Lj. destruct (nth_error ins j) as [i|] eqn:E1; [|discriminate X]. destruct (nth_error ins' j) as [i'|] eqn:E2; [|discriminate Y].
    injection X as <-. injection Y as <-. destruct (I j i i' ltac:(lia) E1 E2) as (V1 & V2 & V3). constructor; cbn; auto.
Qed.

(** ** One run *)
Section One.
Variables (nan : R) (CC : Type) (year : CC -> nat -> R -> R -> CC * R) (data : CC -> hst R -> dict (list R) -> result (CC * frame R)) (sc : scenario R) (c : inst R) (gt : dict (gas R)) (cc0 : CC).
Notation p := (c_p sc).
Notation st0 := (reset_arrays p gt (c_erf sc)).
Hypothesis RF : d_rf c = None.
Hypothesis DS : d_start c = nystart p.
Hypothesis DE : d_end c = nyend p.
Hypothesis PT : plain_table gt (c_erf sc) (c_pc sc).

Lemma frames_of h carbon series fs : any_add_results nan CC data sc h carbon series = Ok fs -> exists forc em cf rest,
  forcing_frame p (snd h) (c_erf sc) = Ok forc /\ emission_frame p (c_emis sc) = Ok em /\ concentration_frame nan p (snd h) (c_pc sc) = Ok cf /\
  fs = [("emissions", em); ("concentrations", cf); ("forcing", forc)] ++ rest /\ wf (map (fun kv : string * frame R => (fst kv, Fr (snd kv))) fs).
Proof.
  unfold any_add_results. destruct (forcing_frame _ _ _) as [forc|]; cbn [rbind]; [|discriminate].
  destruct (emission_frame _ _) as [em|]; cbn [rbind]; [|discriminate]. destruct (concentration_frame _ _ _ _) as [cf|]; cbn [rbind]; [|discriminate]. cbv zeta.
  intros E. destruct carbon.
  - destruct (data _ _ _) as [r|]; cbn [rbind] in E; [|discriminate]. injection E as <-. exists forc, em, cf, [("carbon cycle", snd r)]. repeat (split; [reflexivity|]).
    unfold wf, dkeys. cbn. repeat constructor; cbn; intuition discriminate.
  - injection E as <-. exists forc, em, cf, []. repeat (split; [reflexivity|]). unfold wf, dkeys. cbn. repeat constructor; cbn; intuition discriminate.
Qed.
Lemma reset_has k : In k ["CO2"; "N2O"] -> In k (dkeys (s_conc st0)).
Proof.
  intros I. destruct (pt_conc _ _ _ PT k I) as [(g & G & U) M]. unfold reset_arrays. cbn [s_conc]. unfold dkeys. rewrite map_map. cbn [fst]. rewrite map_id.
  apply filter_In. split; [apply filter_In; split|].
  - unfold gases_spicy. apply filter_In. split; [apply dget_In_keys, dmem_true; eauto|]. rewrite M. destruct I as [<-|[<-|[]]]; reflexivity.
  - destruct I as [<-|[<-|[]]]; reflexivity.
  - rewrite G. apply String.eqb_neq in U. rewrite U. destruct I as [<-|[<-|[]]]; reflexivity.
Qed.
Lemma conc_column st cf k :
  dkeys (s_conc st) = dkeys (s_conc st0) -> dkeys (s_gas st) = dkeys gt -> concentration_frame nan p st (c_pc sc) = Ok cf -> In k ["CO2"; "N2O"] ->
  exists col, dget (fr_cols cf) k = Some col /\ List.length col = d_years c /\ forall j v, (j < d_years c)%nat -> conc_get st k (nystart p + Z.of_nat j) = Ok v -> nth_error col j = Some v.
Proof.
  intros KC KG CF I. destruct PT as [W [_ [_ NY]] _ _ _ [WP [NE PE]]]. assert (IC := reset_has k I).
  assert (YL : List.length (years_of p) = d_years c).
  { unfold years_of, d_years. rewrite P_Input2.zrange_length, DS, DE. reflexivity. }
  destruct (concentration_spec nan p st (c_pc sc) cf) as [_ [_ [_ [_ [CS _]]]]].
  { rewrite KC. constructor.
    - rewrite in_app_iff. intros [J|J]; [apply reset_conc_keys in J; apply NY, in_or_app; left; tauto|apply NY, in_or_app; right; exact J].
    - assert (Q : forall a b : list string, NoDup a -> NoDup b -> (forall k, In k a -> ~ In k b) -> NoDup (a ++ b)).
      { induction a as [|x a IH]; intros b Na Nb D; [exact Nb|]. inversion Na; subst. cbn [app]. constructor.
        - rewrite in_app_iff. intros [J|J]; [contradiction|]. apply (D x); [left; reflexivity|exact J].
        - apply IH; try assumption. intros k' J. apply D. right; exact J. }
      apply Q; [exact (P_Coupled2.reset_conc_wf sc gt W)|exact WP|]. intros x J J'. apply reset_conc_keys in J. destruct J as [_ J]. rewrite (PE x J') in J. discriminate J. }
  { rewrite KG. intros J. apply NY, in_or_app. left; exact J. }
  { exact NE. }
  { exact CF. }
  assert (ID := IC). rewrite <- KC in ID. apply dget_In_keys, dmem_true in ID. destruct ID as [d D]. exists (conc_series nan (years_of p) d).
  split; [apply CS; [rewrite KG; apply (reset_conc_keys sc gt) in IC; tauto|exact D]|]. split; [unfold conc_series; rewrite map_length; exact YL|].
  intros j v Lj G. unfold conc_series. rewrite nth_error_map. unfold years_of. rewrite P_Gas2.zrange_nth; [|unfold years_of in YL; rewrite P_Input2.zrange_length in YL; lia]. cbn [option_map].
  unfold conc_get in G. rewrite D in G. cbn [key rbind] in G. destruct (yget d _) as [v'|]; cbn [key] in G; [|discriminate]. congruence.
Qed.

(** what a completed run shows *)
Lemma shown T (th : thermal R T) t0 carbon r out : any_run nan CC year data sc th c gt t0 cc0 true carbon r = out -> o_exn out = None ->
  (forall o, In o (output_names (t_names th)) -> ~ In o ["emissions"; "concentrations"; "forcing"; "carbon cycle"]) ->
  exists s, run_years T th c (CC * hst R) (any_emi2conc CC year sc) (any_conc2forc CC sc) h_feedbacks t0 (cc0, st0) r = (s, None) /\
    (forall o, In o (output_names (t_names th)) -> dget (o_results out) o = dget (l_res s) o) /\
    (dkeys (s_conc (snd (l_h s))) = dkeys (s_conc st0) -> dkeys (s_gas (snd (l_h s))) = dkeys gt -> forall k, In k ["CO2"; "N2O"] ->
      exists col, in_frame (o_results out) "concentrations" k col /\ List.length col = d_years c /\
        forall j v, (j < d_years c)%nat -> conc_get (snd (l_h s)) k (nystart p + Z.of_nat j) = Ok v -> nth_error col j = Some v).
Proof.
  intros E X NO. destruct (any_parts nan CC year data sc th c gt t0 cc0 carbon r out RF E X) as (s & series & fs & RY & AR & _ & _ & OR).
  exists s. split; [exact RY|]. destruct (frames_of (l_h s) carbon series fs AR) as (forc & em & cf & rest & F1 & F2 & F3 & F4 & F5). split.
  - intros o I. rewrite OR, dget_dupdate by exact F5. assert (Z : dget (map (fun kv : string * frame R => (fst kv, Fr (snd kv))) fs) o = None).
    { apply dmem_false. destruct (dmem (map (fun kv : string * frame R => (fst kv, Fr (snd kv))) fs) o) eqn:Q; [|reflexivity]. exfalso. apply dget_In_keys in Q. unfold dkeys in Q. rewrite map_map in Q. cbn [fst] in Q.
      apply (NO o I). unfold any_add_results in AR. rewrite F1, F2, F3 in AR. cbn [rbind] in AR. cbv zeta in AR. destruct carbon.
      - destruct (data _ _ _) as [q|]; cbn [rbind] in AR; [|discriminate]. injection AR as <-. cbn in Q |- *. tauto.
      - injection AR as <-. cbn in Q |- *. tauto. }
    rewrite Z. reflexivity.
  - intros KC KG k I. destruct (conc_column (snd (l_h s)) cf k KC KG F3 I) as (col & C1 & C2 & C3). exists col. split; [|split; [exact C2|exact C3]].
    exists cf. split; [|exact C1]. rewrite OR, dget_dupdate by exact F5. rewrite F4. reflexivity.
Qed.
End One.

(** ** Two runs *)
Section Both.
Variables (nan : R) (CC CC' : Type) (year : CC -> nat -> R -> R -> CC * R) (year' : CC' -> nat -> R -> R -> CC' * R)
  (data : CC -> hst R -> dict (list R) -> result (CC * frame R)) (data' : CC' -> hst R -> dict (list R) -> result (CC' * frame R))
  (sc sc' : scenario R) (c : inst R) (gt : dict (gas R)) (cc0 : CC) (cc0' : CC').
Notation p := (c_p sc).
Hypothesis BF : but_for_co2 sc sc'.
Hypothesis PT : plain_table gt (c_erf sc) (c_pc sc).
Hypothesis RF : d_rf c = None.
Hypothesis DS : d_start c = nystart p.
Hypothesis DE : d_end c = nyend p.

Lemma PT' : plain_table gt (c_erf sc') (c_pc sc').
Proof. rewrite (bf_erf _ _ BF), (bf_pc _ _ BF). exact PT. Qed.
Lemma DS' : d_start c = nystart (c_p sc'). Proof. rewrite (bf_p _ _ BF). exact DS. Qed.
Lemma DE' : d_end c = nyend (c_p sc'). Proof. rewrite (bf_p _ _ BF). exact DE. Qed.
Lemma near0 : near (reset_arrays p gt (c_erf sc)) (reset_arrays (c_p sc') gt (c_erf sc')).
Proof.
  rewrite (bf_p _ _ BF), (bf_erf _ _ BF). constructor; [reflexivity|apply alike_refl|apply alike_refl|].
  intros k I. destruct PT as [W [N1 [N2 _]] _ _ _ _]. assert (K : k = "Total_forcing" \/ In k (dkeys gt)).
  { apply in_app_iff in I. destruct I as [I|I]; [right; apply (reset_conc_keys sc gt) in I; tauto|]. unfold reset_arrays in I. cbn [s_forc] in I. rewrite dkeys_dset in I.
    match type of I with In k (if ?b then _ else _) => destruct b end.
    - right. unfold dkeys in I. rewrite map_map in I. cbn [fst] in I. rewrite map_id in I. apply filter_In in I. destruct I as [I _]. unfold gases_spicy in I. apply filter_In in I. tauto.
    - apply in_app_iff in I. destruct I as [I|[<-|[]]]; [right|left; reflexivity]. unfold dkeys in I. rewrite map_map in I. cbn [fst] in I. rewrite map_id in I. apply filter_In in I. destruct I as [I _]. unfold gases_spicy in I. apply filter_In in I. tauto. }
  intros [<-|[<-|[]]]; destruct K as [K|K]; try discriminate K; contradiction.
Qed.
Lemma wf0 (s : scenario R) : wf (s_forc (reset_arrays (c_p s) gt (c_erf s))).
Proof. exact (proj1 (P_Forc4.reset_fine (c_p s) gt (c_erf s) (pt_wf _ _ _ PT) (pt_total _ _ _ PT))). Qed.

(** the rows of two runs *)
Lemma rows l l' h1 h1' co2 co2' n2o M : htrace c (any_emi2conc CC year sc) (any_conc2forc CC sc) 0 (cc0, reset_arrays p gt (c_erf sc)) l h1 ->
  htrace c (any_emi2conc CC' year' sc') (any_conc2forc CC' sc') 0 (cc0', reset_arrays (c_p sc') gt (c_erf sc')) l' h1' -> List.length l = d_years c -> List.length l' = d_years c ->
  (forall j v, (j < d_years c)%nat -> conc_get (snd h1) "CO2" (nystart p + Z.of_nat j) = Ok v -> nth_error co2 j = Some v) ->
  (forall j v, (j < d_years c)%nat -> conc_get (snd h1') "CO2" (nystart p + Z.of_nat j) = Ok v -> nth_error co2' j = Some v) ->
  (forall j v, (j < d_years c)%nat -> conc_get (snd h1) "N2O" (nystart p + Z.of_nat j) = Ok v -> nth_error n2o j = Some v) ->
  more_co2 M co2 co2' n2o -> forall k x x', (k <= M)%nat -> nth_error l k = Some x -> nth_error l' k = Some x' ->
  exists gc v v', dget gt "CO2" = Some gc /\ 0 <= g_sarf gc /\ nth_error co2 k = Some v /\ nth_error co2' k = Some v' /\ v <= v' /\ 4 / 10 ^ 4 * g_sarf gc * (v' - v) <= total_of x' - total_of x /\
    balanced x /\ balanced x' /\ snd (fst x) = snd (fst x') /\ alike_halves x x'.
Proof.
  intros HT HT' L L' H1 H2 H3 MO k x x' Lk X X'.
  destruct (two_traces CC CC' year year' sc sc' c BF DS l l' 0%nat _ _ _ _ HT HT' ltac:(congruence) near0 (wf0 sc) (wf0 sc')) as [_ T]. destruct (T k x x' X X') as (BY & B1 & B2 & HV & S1 & S2). clear T. cbn [plus] in *.
  assert (Kk : (k < d_years c)%nat) by (rewrite <- L; apply nth_error_Some; congruence).
  destruct BY as (c0 & v & c0' & v' & n0 & n & m0 & m & gc & gn & E1 & E2 & E3 & E4 & E5 & E6 & _ & _ & G1 & G2 & ->).
  rewrite <- (Z.add_0_r (nystart p)) in E1, E3, E5. apply (H1 0%nat) in E1; [|lia]. apply (H2 0%nat) in E3; [|lia]. apply (H3 0%nat) in E5; [|lia].
  apply H1 in E2; [|exact Kk]. apply H2 in E4; [|exact Kk]. apply H3 in E6; [|exact Kk].
  destruct MO as [(z & Z1 & Z2 & Z3 & Z4) NN]. assert (c0 = z) by congruence. assert (c0' = z) by congruence. subst c0 c0'. destruct (Z4 k v v' Lk E2 E4) as ([V1 V2] & V3 & V4).
  assert (N1 := NN 0%nat n0 ltac:(lia) E5). assert (N2 := NN k n Lk E6).
  destruct (any_past CC year sc c _ _ _ _ HT DS) as (_ & _ & _ & SS & _). cbn [snd] in SS.
  assert (SG : forall q g, dget (s_gas (snd h1)) q = Some g -> exists g2, dget gt q = Some g2 /\ g_sarf g2 = g_sarf g).
  { intros q g E. specialize (SS q). rewrite E in SS. cbn in SS. destruct (dget gt q) as [g2|]; [|discriminate]. cbn in SS. injection SS as SS. eauto. }
  destruct (SG _ _ G1) as (gc2 & D1 & <-). destruct (SG _ _ G2) as (gn2 & D2 & <-). assert (SF := pt_sarf _ _ _ PT gc2 gn2 D1 D2).
  exists gc2, v, v'. split; [exact D1|]. split; [lra|]. split; [exact E2|]. split; [exact E4|]. split; [exact V2|]. split; [|split; [exact B1|split; [exact B2|split; [congruence|exact HV]]]].
  apply rise; assumption || lra.
Qed.
Lemma in_frame_fun (r : results R) a b v v' : in_frame r a b v -> in_frame r a b v' -> v = v'.
Proof. intros (f & F & D) (f' & F' & D'). congruence. Qed.

Lemma c109_forcing T T' (th : thermal R T) (th' : thermal R T') t0 t0' carbon carbon' r r' out out' M co2 co2' n2o g :
  distinct_outputs (t_names th) -> distinct_outputs (t_names th') ->
  (forall o, In o (output_names (t_names th) ++ output_names (t_names th')) -> ~ In o ["emissions"; "concentrations"; "forcing"; "carbon cycle"]) ->
  any_run nan CC year data sc th c gt t0 cc0 true carbon r = out -> any_run nan CC' year' data' sc' th' c gt t0' cc0' true carbon' r' = out' ->
  o_exn out = None -> o_exn out' = None ->
  in_frame (o_results out) "concentrations" "CO2" co2 -> in_frame (o_results out') "concentrations" "CO2" co2' -> in_frame (o_results out) "concentrations" "N2O" n2o ->
  more_co2 M co2 co2' n2o -> dget gt "CO2" = Some g ->
  exists f f', in_array (o_results out) "Total_forcing" f /\ in_array (o_results out') "Total_forcing" f' /\ List.length f = d_years c /\ List.length f' = d_years c /\
    forall k x x', (k <= M)%nat -> nth_error f k = Some x -> nth_error f' k = Some x' ->
    exists v v', nth_error co2 k = Some v /\ nth_error co2' k = Some v' /\ 0 <= 4 / 10 ^ 4 * g_sarf g * (v' - v) <= x' - x.
Proof.
  intros DO DO' NO E E' X X' C1 C2 C3 MO G.
  destruct (shown nan CC year data sc c gt cc0 RF DS DE PT T th t0 carbon r out E X) as (s & RY & O1 & O2); [intros o I; apply NO, in_or_app; left; exact I|].
  destruct (shown nan CC' year' data' sc' c gt cc0' RF DS' DE' PT' T' th' t0' carbon' r' out' E' X') as (s' & RY' & O1' & O2'); [intros o I; apply NO, in_or_app; right; exact I|].
  unfold run_years, year_list in RY, RY'. rewrite <- (Z.add_0_r (d_start c)) in RY, RY' at 1.
  destruct (years_trace th c _ _ _ _ RF _ 0%nat _ RY) as (tr & l & X1 & X2 & X3 & X4 & X5). destruct (years_trace th' c _ _ _ _ RF _ 0%nat _ RY') as (tr' & l' & Y1 & Y2 & Y3 & Y4 & Y5).
  cbn [l_h] in X3, Y3.
  assert (FC : complete (t_names th) c tr (l_res s)).
  { eapply filled_complete; [|exact X2]. change tr with ([] ++ tr). eapply (steps_filled th c DO); [exact X1 | reflexivity | apply filled_init | cbn; lia]. }
  assert (FC' : complete (t_names th') c tr' (l_res s')).
  { eapply filled_complete; [|exact Y2]. change tr' with ([] ++ tr'). eapply (steps_filled th' c DO'); [exact Y1 | reflexivity | apply filled_init | cbn; lia]. }
  destruct (forc_columns _ _ _ _ DO FC X2) as [TF _]. destruct (forc_columns _ _ _ _ DO' FC' Y2) as [TF' _].
  assert (IT : In "Total_forcing" (output_names (t_names th))) by (apply in_or_app; right; left; reflexivity). assert (IT' : In "Total_forcing" (output_names (t_names th'))) by (apply in_or_app; right; left; reflexivity).
  destruct (any_past CC year sc c _ _ _ _ X3 DS) as (K1 & _ & K2 & _). destruct (any_past CC' year' sc' c _ _ _ _ Y3 DS') as (K1' & _ & K2' & _). cbn [snd] in *.
  destruct (O2 K1 K2 "CO2" ltac:(cbn; tauto)) as (a & A1 & A2 & A3). destruct (O2 K1 K2 "N2O" ltac:(cbn; tauto)) as (b & B1 & B2 & B3). destruct (O2' K1' K2' "CO2" ltac:(cbn; tauto)) as (d & D1 & D2 & D3).
  assert (a = co2) by (eapply in_frame_fun; eassumption). assert (b = n2o) by (eapply in_frame_fun; eassumption). assert (d = co2') by (eapply in_frame_fun; eassumption). subst a b d.
  rewrite (bf_p _ _ BF) in D3.
  exists (map snd tr), (map snd tr'). split; [unfold in_array; rewrite O1 by exact IT; exact TF|]. split; [unfold in_array; rewrite O1' by exact IT'; exact TF'|].
  rewrite !map_length. split; [exact X2|]. split; [exact Y2|]. intros k x x' Lk Q Q'.
  rewrite nth_error_map in Q, Q'. destruct (nth_error tr k) as [[tv tf]|] eqn:TN; [|discriminate Q]. destruct (nth_error tr' k) as [[tv' tf']|] eqn:TN'; [|discriminate Q']. injection Q as <-. injection Q' as <-.
  assert (Kk : (k < d_years c)%nat) by (rewrite <- X2; apply nth_error_Some; congruence).
  destruct (nth_error l k) as [y|] eqn:LN; [|apply nth_error_None in LN; lia]. destruct (nth_error l' k) as [y'|] eqn:LN'; [|apply nth_error_None in LN'; lia].
  destruct (X5 k y LN) as [_ W]. destruct (Y5 k y' LN') as [_ W']. rewrite TN in W. rewrite TN' in W'. cbn [option_map snd] in *. injection W as ->. injection W' as ->.
  destruct (rows l l' _ _ co2 co2' n2o M X3 Y3 X4 Y4 A3 D3 B3 MO k y y' Lk LN LN') as (gc & v & v' & R1 & R2 & R3 & R4 & R5 & R6 & _).
  assert (gc = g) by congruence. subst gc. exists v, v'. split; [exact R3|]. split; [exact R4|]. split; [|exact R6]. apply Rmult_le_pos; [|lra]. apply Rmult_le_pos; [cbn [pow]; lra|exact R2].
Qed.

Lemma c109_warming tp carbon carbon' r r' out out' M co2 co2' n2o :
  any_run nan CC year data sc (tl_thermal tp) c gt (tl_init tp) cc0 true carbon r = out -> any_run nan CC' year' data' sc' (tl_thermal tp) c gt (tl_init tp) cc0' true carbon' r' = out' ->
  o_exn out = None -> o_exn out' = None ->
  in_frame (o_results out) "concentrations" "CO2" co2 -> in_frame (o_results out') "concentrations" "CO2" co2' -> in_frame (o_results out) "concentrations" "N2O" n2o ->
  more_co2 M co2 co2' n2o -> calm_ocean tp ->
  (forall k vn vs, (k <= M)%nat -> nth_error (d_vn c) k = Some vn -> nth_error (d_vs c) k = Some vs -> List.length vn = List.length vs) ->
  forall o, In o ["dT_glob"; "OHC_MIXED"; "OHC_DEEP"; "OHC700"; "OHCTOT"; "dT_fast"; "dT_slow"] ->
  exists w w', in_array (o_results out) o w /\ in_array (o_results out') o w' /\ List.length w = d_years c /\ upto_le M w w'.
Proof.
  intros E E' X X' C1 C2 C3 MO CA VV o IO.
  assert (NO : forall q, In q (output_names (t_names (tl_thermal tp))) -> ~ In q ["emissions"; "concentrations"; "forcing"; "carbon cycle"]).
  { intros q I. cbn in I. repeat (destruct I as [<-|I]; [intros [J|[J|[J|[J|[]]]]]; discriminate J|]). destruct I. }
  destruct (shown nan CC year data sc c gt cc0 RF DS DE PT _ (tl_thermal tp) (tl_init tp) carbon r out E X NO) as (s & RY & O1 & O2).
  destruct (shown nan CC' year' data' sc' c gt cc0' RF DS' DE' PT' _ (tl_thermal tp) (tl_init tp) carbon' r' out' E' X' NO) as (s' & RY' & O1' & O2').
  unfold run_years, year_list in RY, RY'. rewrite <- (Z.add_0_r (d_start c)) in RY, RY' at 1.
  destruct (tl_years tp c _ _ _ _ _ RF _ 0%nat _ RY) as (tr & l & ins & X1 & X2 & X3 & X4 & X5 & X6 & X7 & X8).
  destruct (tl_years tp c _ _ _ _ _ RF _ 0%nat _ RY') as (tr' & l' & ins' & Y1 & Y2 & Y3 & Y4 & Y5 & Y6 & Y7 & Y8). cbn [l_h l_t plus] in *.
  assert (FC : complete (t_names (tl_thermal tp)) c tr (l_res s)).
  { eapply filled_complete; [|exact X2]. change tr with ([] ++ tr). eapply (steps_filled (tl_thermal tp) c tl_distinct); [exact X1 | reflexivity | apply (filled_init (tl_thermal tp)) | cbn; lia]. }
  assert (FC' : complete (t_names (tl_thermal tp)) c tr' (l_res s')).
  { eapply filled_complete; [|exact Y2]. change tr' with ([] ++ tr'). eapply (steps_filled (tl_thermal tp) c tl_distinct); [exact Y1 | reflexivity | apply (filled_init (tl_thermal tp)) | cbn; lia]. }
  destruct (any_past CC year sc c _ _ _ _ X3 DS) as (K1 & _ & K2 & _). destruct (any_past CC' year' sc' c _ _ _ _ Y3 DS') as (K1' & _ & K2' & _). cbn [snd] in *.
  destruct (O2 K1 K2 "CO2" ltac:(cbn; tauto)) as (a & A1 & A2 & A3). destruct (O2 K1 K2 "N2O" ltac:(cbn; tauto)) as (b & B1 & B2 & B3). destruct (O2' K1' K2' "CO2" ltac:(cbn; tauto)) as (d & D1 & D2 & D3).
  assert (a = co2) by (eapply in_frame_fun; eassumption). assert (b = n2o) by (eapply in_frame_fun; eassumption). assert (d = co2') by (eapply in_frame_fun; eassumption). subst a b d.
  rewrite (bf_p _ _ BF) in D3.
  assert (RO := run_order tp M ins ins' CA ltac:(congruence)). 
  assert (IN : forall k i i', (k <= M)%nat -> nth_error ins k = Some i -> nth_error ins' k = Some i' -> List.length (i_vn i) = List.length (i_vs i) /\ List.length (i_vn i') = List.length (i_vs i') /\ year_forcing i <= year_forcing i').
  { intros k i i' Lk Q Q'. assert (Kk : (k < d_years c)%nat) by (rewrite <- X5; apply nth_error_Some; congruence).
    destruct (nth_error l k) as [y|] eqn:LN; [|apply nth_error_None in LN; lia]. destruct (nth_error l' k) as [y'|] eqn:LN'; [|apply nth_error_None in LN'; lia].
    destruct (X8 k y i LN Q) as (U1 & U2 & U3). destruct (Y8 k y' i' LN' Q') as (W1 & W2 & W3). split; [exact (VV k _ _ Lk U2 U3)|]. split; [exact (VV k _ _ Lk W2 W3)|].
    destruct (rows l l' _ _ co2 co2' n2o M X3 Y3 X4 Y4 A3 D3 B3 MO k y y' Lk LN LN') as (gc & v & v' & R1 & R2 & R3 & R4 & R5 & R6 & R7 & R8 & R9 & _).
    assert (EV : i_vn i' = i_vn i) by congruence. assert (EV' : i_vs i' = i_vs i) by congruence.
    unfold balanced in R7, R8. rewrite U1 in R7. rewrite W1 in R8. cbn [fst snd] in R7, R8. unfold year_forcing. rewrite EV, EV', R7, R8.
    assert (0 <= 4 / 10 ^ 4 * g_sarf gc * (v' - v)) by (apply Rmult_le_pos; [apply Rmult_le_pos; [cbn [pow]; lra|exact R2]|lra]). rewrite R9. lra. }
  specialize (RO IN).
  assert (RD : exists g, In (o, g) tl_read /\ forall q q', out_le q q' -> g q <= g q').
  { unfold tl_read. cbn [In] in IO. repeat (destruct IO as [<-|IO]; [eexists; split; [cbn [In]; tauto|intros q q' []; assumption]|]). destruct IO. }
  destruct RD as (g & RI & RM).
  assert (OO : In o (output_names (t_names (tl_thermal tp)))) by (cbn [In] in IO |- *; repeat (destruct IO as [<-|IO]; [cbn; tauto|]); destruct IO).
  exists (map g (tl_run tp (tl_init tp) ins)), (map g (tl_run tp (tl_init tp) ins')).
  split; [unfold in_array; rewrite O1 by exact OO; apply (tl_columns c tr _ _ o g FC X6 RI)|]. split; [unfold in_array; rewrite O1' by exact OO; apply (tl_columns c tr' _ _ o g FC' Y6 RI)|].
  split; [rewrite map_length, tl_run_len; exact X5|]. split; [rewrite !map_length, !tl_run_len; congruence|].
  intros k x x' Lk Q Q'. rewrite nth_error_map in Q, Q'. destruct (nth_error (tl_run tp (tl_init tp) ins) k) as [q|] eqn:QN; [|discriminate Q]. destruct (nth_error (tl_run tp (tl_init tp) ins') k) as [q'|] eqn:QN'; [|discriminate Q'].
  injection Q as <-. injection Q' as <-. apply RM. exact (RO k q q' Lk QN QN').
Qed.
End Both.
