(** * P_Span2: two runs of different lengths whose inputs agree up to a year (C91) *)
From Coq Require Import Lia.
From Verif Require Import PyBase PyBaseFacts Num M_Gas M_TwoLayer M_Forcing M_Carbon M_CarbonBack M_Driver M_Results M_BoxRun Spec_Gas Spec_Driver Spec_Reader Spec_Results Spec_Coupled Spec_Span
  P_Gas3 P_Results P_Results2 P_Driver P_Driver2 P_Driver3 P_Driver4 P_Coupled P_Coupled2 P_Coupled5 P_Coupled6 P_AnyCarbon P_Span.
From Verif Require P_Input2 P_Gas2 P_Gas4 Spec_Forc.

(** ** The carbon cycle *)
Section Carbon.
Context {A : Type} {N : Num A}.

Lemma alike_firstn {B} n k (l l' : list B) : starts_alike n l l' -> (k <= n)%nat -> firstn k l = firstn k l'.
Proof.
  revert n l l'. induction k as [|k IH]; intros n l l' S L; [reflexivity|]. assert (E := S 0%nat ltac:(lia)). destruct l as [|x l], l' as [|x' l']; cbn in E; try discriminate; [reflexivity|].
  injection E as ->. cbn [firstn]. f_equal. apply (IH (n - 1)%nat); [|lia]. intros i Li. apply (S (Datatypes.S i)). lia.
Qed.
Lemma alike_tl {B} n (l l' : list B) : starts_alike n l l' -> starts_alike (n - 1) (tl l) (tl l').
Proof.
  intros S i Li. assert (E := S 0%nat ltac:(lia)). assert (E1 := S (Datatypes.S i) ltac:(lia)). destruct l as [|x l], l' as [|x' l']; cbn in E, E1 |- *; try discriminate; [reflexivity|exact E1].
Qed.
Lemma alike_nth {B} n i (l l' : list B) d : starts_alike n l l' -> (i < n)%nat -> nth i l d = nth i l' d.
Proof. intros S L. rewrite <- !nth_default_eq. unfold nth_default. rewrite (S i L). reflexivity. Qed.
Lemma upd_nth {B} (l : list B) : forall i j v, nth_error (upd l i v) j = if Nat.eqb i j then option_map (fun _ => v) (nth_error l j) else nth_error l j.
Proof.
  induction l as [|x l IH]; intros [|i] [|j] v; cbn [upd nth_error Nat.eqb option_map]; try reflexivity; [destruct (Nat.eqb i j); reflexivity|]. apply IH.
Qed.
Lemma alike_upd {B} n i (l l' : list B) v : starts_alike n l l' -> starts_alike n (upd l i v) (upd l' i v).
Proof. intros S j Lj. rewrite !upd_nth, (S j Lj). reflexivity. Qed.

Variables (M : nat) (cp cp' : cc_pam A).
Hypothesis SD : same_decay M cp cp'.

Lemma same_step fnpp em h h' it : same_carbon M cp h h' -> (it < S M * idtm cp)%nat -> same_carbon M cp (cc_step cp fnpp em h it) (cc_step cp' fnpp em h' it).
Proof.
  destruct SD as [-> [DS DB]]. cbn [r_s r_b with_window] in DS, DB. intros [E1 E2 E3 E4 E5 E6 E7 ES ED] L.
  set (n := (S M * idtm cp)%nat) in *.
  unfold cc_step, cc_dt, cc1, sumf, partial_pressure, z_co2, sumz. cbv zeta. cbn [h_y h_x h_s h_emp h_d h_ss1 h_sums h_sol h_ml with_window r_s r_b beta_f preind idtm].
  unfold cc_dt. cbn [with_window idtm]. rewrite <- E1, <- E2, <- E3, <- E4, <- E5, <- E6, <- E7.
  set (d := if Nat.eqb it 0 then h_d h else _). set (d' := if Nat.eqb it 0 then h_d h' else _).
  assert (AD : starts_alike n d d') by (unfold d, d'; destruct (Nat.eqb it 0); [exact ED|apply alike_upd; exact ED]).
  rewrite <- (alike_nth n it d d') by assumption.
  rewrite <- (alike_firstn (n - 1) (it - 1) (tl d) (tl d')) by (try apply alike_tl; try assumption; lia).
  rewrite <- (alike_firstn n (it - 1) (r_b cp) (r_b cp')) by (try assumption; lia).
  rewrite <- (alike_firstn (n - 1) (it - 1) (tl (r_s cp)) (tl (r_s cp'))) by (try apply alike_tl; try assumption; lia).
  rewrite <- (alike_nth n (it - 1) (h_s h) (h_s h')) by (try assumption; lia).
  match goal with |- context [upd (h_s h) it ?v] => set (x := v) end.
  assert (AS : starts_alike n (upd (h_s h) it x) (upd (h_s h') it x)) by (apply alike_upd; exact ES).
  rewrite <- (alike_nth n it _ _ _ AS L). rewrite <- (alike_firstn n (it - 1) _ _ AS) by lia.
  constructor; try reflexivity; assumption.
Qed.
Lemma same_co2 h h' ix em dt : same_carbon M cp h h' -> (ix <= M)%nat ->
  same_carbon M cp (fst (co2em2conc cp h ix em dt)) (fst (co2em2conc cp' h' ix em dt)) /\ snd (co2em2conc cp h ix em dt) = snd (co2em2conc cp' h' ix em dt).
Proof.
  intros S L. unfold co2em2conc. cbv zeta. cbn [fst snd].
  assert (EF : fnpp_from_temp cp' dt = fnpp_from_temp cp dt) by (rewrite (proj1 SD); reflexivity). assert (EI : idtm cp' = idtm cp) by (rewrite (proj1 SD); reflexivity). rewrite EF, EI.
  assert (Q : forall l h h', (forall it, In it l -> (it < Datatypes.S M * idtm cp)%nat) -> same_carbon M cp h h' ->
     same_carbon M cp (fold_left (cc_step cp (fnpp_from_temp cp dt) em) l h) (fold_left (cc_step cp' (fnpp_from_temp cp dt) em) l h')).
  { induction l as [|it l IH]; intros g g' I R; [exact R|]. cbn [fold_left]. apply IH; [intros j J; apply I; right; exact J|]. apply same_step; [exact R|apply I; left; reflexivity]. }
  assert (R : same_carbon M cp (fold_left (cc_step cp (fnpp_from_temp cp dt) em) (seq (ix * idtm cp) (idtm cp)) (update_temp_feedbacks cp h dt))
    (fold_left (cc_step cp' (fnpp_from_temp cp dt) em) (seq (ix * idtm cp) (idtm cp)) (update_temp_feedbacks cp' h' dt))).
  { apply Q.
    - intros it I. apply in_seq in I. nia.
    - destruct S as [E1 E2 E3 E4 E5 E6 E7 ES ED]. rewrite (proj1 SD). constructor; try assumption; reflexivity. }
  split; [exact R|]. destruct R; assumption.
Qed.
End Carbon.

Section Runs.
Context {A : Type} {N : Num A} {T : Type}.
(** Two carbon cycles, a relation between their states that their years keep up to row [M] *)
Variables (nan : A) (CC : Type) (year year' : CC -> nat -> A -> A -> CC * A).
Variables (data data' : CC -> hst A -> dict (list A) -> result (CC * frame A)) (KC0 : CC -> CC -> Prop).
Variables (sc sc' : scenario A) (th : thermal A T) (c c' : inst A) (gt : dict (gas A)) (t0 : T) (cc0 cc0' : CC) (M : nat).
Notation p := (c_p sc).
Notation p' := (c_p sc').
Notation y := (nystart p + Z.of_nat M)%Z.
Hypothesis SP : agree_span M sc sc' c c'.
Hypothesis SY : forall n a a' em dt, (n <= M)%nat -> KC0 a a' -> KC0 (fst (year a n em dt)) (fst (year' a' n em dt)) /\ snd (year a n em dt) = snd (year' a' n em dt).
Hypothesis SC : KC0 cc0 cc0'.
Hypothesis AF : agree_on (until y) (c_erf sc) (c_erf sc').
Hypothesis WF : wf (fr_cols (c_erf sc)).
Hypothesis WF' : wf (fr_cols (c_erf sc')).
Hypothesis DO : distinct_outputs (t_names th).

Definition rel (h h' : CC * hst A) : Prop := KC0 (fst h) (fst h') /\ near M (snd h) (snd h').
Lemma RF : d_rf c = None.
Proof. apply SP. Qed.
Lemma RF' : d_rf c' = None.
Proof. apply SP. Qed.
Lemma start : nystart p' = nystart p.
Proof. rewrite (sp_p _ _ _ _ _ SP). reflexivity. Qed.
Lemma ST : d_start c = nystart p.
Proof. apply SP. Qed.
Lemma ST' : d_start c' = d_start c.
Proof. rewrite (sp_start' _ _ _ _ _ SP), (sp_start _ _ _ _ _ SP). reflexivity. Qed.

Lemma rel_e2c n h h' fb g g' : (n <= M)%nat -> rel h h' -> any_emi2conc CC year sc h (d_start c + Z.of_nat n)%Z fb = Ok g -> any_emi2conc CC year' sc' h' (d_start c + Z.of_nat n)%Z fb = Ok g' -> rel g g'.
Proof.
  intros L [R1 [G [C F]]] E E'. unfold any_emi2conc in E, E'. rewrite ST in E, E'.
  rewrite (sp_p _ _ _ _ _ SP) in E'.
  match type of E' with emi2conc _ _ _ (with_end ?q ?e) ?a1 ?a2 ?a3 ?a4 ?a5 ?a6 ?a7 ?a8 = _ =>
    change (emi2conc CC (option (dict A)) (fun cc y em fb => year' cc (Z.to_nat (y - nystart (c_p sc))) em (dtemp_of fb)) q a1 a2 a3 a4 a5 a6 a7 a8 = Ok g') in E' end.
  rewrite <- (emi2conc_agree _ _ (fun cc y em fb => year' cc (Z.to_nat (y - nystart (c_p sc))) em (dtemp_of fb)) p (c_conc sc) (c_conc sc') (c_emis sc) (c_emis sc') (c_nat_ch4 sc) (c_nat_ch4 sc') (c_nat_n2o sc) (c_nat_n2o sc')) in E'.
  - assert (Q := like_emi2conc CC (option (dict A)) (fun cc y em fb => year cc (Z.to_nat (y - nystart (c_p sc))) em (dtemp_of fb)) (fun cc y em fb => year' cc (Z.to_nat (y - nystart (c_p sc))) em (dtemp_of fb)) KC0 p (c_conc sc) (c_emis sc) (c_nat_ch4 sc) (c_nat_n2o sc) (nystart p + Z.of_nat n)%Z (s_forc (snd h)) (s_forc (snd h'))).
    specialize (fun CO => Q CO fb (fst h) (fst h') (snd h) (snd h') R1 (conj G (conj C (conj eq_refl eq_refl)))). rewrite E, E' in Q.
    destruct g as [cc st], g' as [cc' st']. destruct Q as [Q1 [Q2 [Q3 [Q4 Q5]]]].
    { intros a a' em fb0 Ra. apply SY; [lia|exact Ra]. }
    split; [exact Q1|]. cbn [snd]. split; [exact Q2|]. split; [exact Q3|]. rewrite Q4, Q5. exact F.
  - eapply weaken; [|exact (sp_conc _ _ _ _ _ SP)]. unfold conc_until. intros k z [X|X]; [left; lia|right; exact X].
  - eapply weaken; [|exact (sp_emis _ _ _ _ _ SP)]. unfold emis_until. intros k z [X|X]; [left; lia|right; exact X].
  - eapply weaken; [|exact (sp_nat_ch4 _ _ _ _ _ SP)]. unfold until. intros k z X. lia.
  - eapply weaken; [|exact (sp_nat_n2o _ _ _ _ _ SP)]. unfold until. intros k z X. lia.
Qed.
Lemma rel_c2f n h h' luc sun g g' q q' : (n <= M)%nat -> rel h h' -> any_conc2forc CC sc h (d_start c + Z.of_nat n)%Z luc sun = Ok (g, q) -> any_conc2forc CC sc' h' (d_start c + Z.of_nat n)%Z luc sun = Ok (g', q') ->
  rel g g' /\ q = q'.
Proof.
  intros L [R1 R2] E E'. unfold any_conc2forc in E, E'. rewrite ST in E, E'. rewrite (sp_p _ _ _ _ _ SP) in E'.
  match type of E' with context [conc2forc (with_end ?q ?e) ?a1 ?a2 ?a3 ?a4 ?a5 ?a6 ?a7 ?a8] =>
    change (conc2forc (with_end q e) a1 a2 a3 a4 a5 a6 a7 a8) with (conc2forc q a1 a2 a3 a4 a5 a6 a7 a8) in E' end.
  rewrite <- (conc2forc_agree p (c_conc sc) (c_conc sc') (c_emis sc) (c_emis sc') (c_erf sc) (c_erf sc') (nystart p + Z.of_nat n)%Z) with (pert := c_pert sc) in E'.
  - assert (Q := near_conc2forc p (c_conc sc) (c_emis sc) (c_erf sc) (c_pert sc) (nystart p + Z.of_nat n)%Z M ltac:(unfold forc_ix; lia) luc sun (snd h) (snd h') R2).
    destruct (conc2forc _ _ _ _ _ _ _ _ (snd h)) as [[q1 s1]|]; cbn [rbind fst snd] in E; [|discriminate].
    destruct (conc2forc _ _ _ _ _ _ _ _ (snd h')) as [[q1' s1']|]; cbn [rbind fst snd] in E'; [|discriminate].
    injection E as <- <-. injection E' as <- <-. destruct Q as [Q1 Q2]. cbn [fst snd] in *. split; [split; [exact R1|exact Q2]|exact Q1].
  - eapply weaken; [|exact (sp_conc _ _ _ _ _ SP)]. unfold conc_until. intros k z [X|X]; [left; lia|right; exact X].
  - eapply weaken; [|exact (sp_emis _ _ _ _ _ SP)]. unfold emis_until. intros k z [X|X]; [left; lia|right; exact X].
  - exact WF.
  - exact WF'.
  - eapply weaken; [|exact AF]. unfold until. intros k z X. lia.
  - lia.
  - apply (sp_pert _ _ _ _ _ SP). lia.
Qed.
Lemma rows_p : (M < List.length (years_of p))%nat /\ (M < List.length (years_of p'))%nat.
Proof.
  unfold years_of. rewrite !P_Gas2.zrange_len. assert (L := sp_rows _ _ _ _ _ SP). assert (L' := sp_rows' _ _ _ _ _ SP). unfold d_years in L, L'.
  rewrite (sp_start _ _ _ _ _ SP), (sp_end _ _ _ _ _ SP) in L. rewrite (sp_start' _ _ _ _ _ SP), (sp_end' _ _ _ _ _ SP) in L'. rewrite start. lia.
Qed.
Lemma near_reset : near M (reset_arrays p gt (c_erf sc)) (reset_arrays p' gt (c_erf sc')).
Proof.
  destruct rows_p as [L L']. unfold reset_arrays, gases_spicy. rewrite (filter_ext (fun k => negb (dmem (fr_cols (c_erf sc)) k)) (fun k => negb (dmem (fr_cols (c_erf sc')) k))).
  2:{ intros k. rewrite (keys_dmem _ _ k (proj1 AF)). reflexivity. }
  split; [reflexivity|]. split; [reflexivity|]. cbn [s_forc].
  assert (Z : rows_agree M (tab (List.length (years_of p)) (fun _ => nofZ 0 : A)) (tab (List.length (years_of p')) (fun _ => nofZ 0))).
  { intros i Li. unfold tab. rewrite !nth_error_map. rewrite !P_Gas4.seq_nth_error by lia. reflexivity. }
  apply near_set; [|exact Z]. match goal with |- near_forc M (map _ ?l) _ => generalize l end. intros l. induction l as [|k l IH]; [constructor|]. constructor; [split; [reflexivity|exact Z]|exact IH].
Qed.

Lemma runs carbon carbon' r r' out out' : any_run nan CC year data sc th c gt t0 cc0 true carbon r = out -> any_run nan CC year' data' sc' th c' gt t0 cc0' true carbon' r' = out' ->
  o_exn out = None -> o_exn out' = None ->
  exists (s s' : loop A T (CC * hst A)) series series' fs fs' tr tr' h0 h0' l l', any_add_results nan CC data sc (l_h s) carbon series = Ok fs /\ any_add_results nan CC data' sc' (l_h s') carbon' series' = Ok fs' /\
    o_results out = dupdate (l_res s) (map (fun kv => (fst kv, Fr (snd kv))) fs) /\ o_results out' = dupdate (l_res s') (map (fun kv => (fst kv, Fr (snd kv))) fs') /\
    complete (t_names th) c tr (l_res s) /\ complete (t_names th) c' tr' (l_res s') /\ List.length tr = d_years c /\ List.length tr' = d_years c' /\
    (forall k, (k <= M)%nat -> nth_error tr k = nth_error tr' k) /\ rel h0 h0' /\
    htrace c (any_emi2conc CC year sc) (any_conc2forc CC sc) (S M) h0 l (l_h s) /\ htrace c' (any_emi2conc CC year' sc') (any_conc2forc CC sc') (S M) h0' l' (l_h s') /\
    dkeys (s_forc (snd (l_h s))) = dkeys (s_forc (reset_arrays p gt (c_erf sc))) /\ dkeys (s_conc (snd (l_h s))) = dkeys (s_conc (reset_arrays p gt (c_erf sc))) /\
    dkeys (s_forc (snd (l_h s'))) = dkeys (s_forc (reset_arrays p' gt (c_erf sc'))) /\ dkeys (s_conc (snd (l_h s'))) = dkeys (s_conc (reset_arrays p' gt (c_erf sc'))) /\
    dkeys (s_gas (snd (l_h s))) = dkeys gt /\ dkeys (s_gas (snd (l_h s'))) = dkeys gt /\
    feedback_series T th h_feedbacks (l_res s) = Ok series /\ feedback_series T th h_feedbacks (l_res s') = Ok series' /\
    (exists lw, htrace c (any_emi2conc CC year sc) (any_conc2forc CC sc) 0 (cc0, reset_arrays p gt (c_erf sc)) lw (l_h s) /\ List.length lw = d_years c) /\
    (exists lw, htrace c' (any_emi2conc CC year' sc') (any_conc2forc CC sc') 0 (cc0', reset_arrays p' gt (c_erf sc')) lw (l_h s') /\ List.length lw = d_years c').
Proof.
  intros E E' X X'.
  destruct (any_parts nan CC year data sc th c gt t0 cc0 carbon r out RF E X) as [s [series [fs [RY [AR [FB [_ OR]]]]]]].
  destruct (any_parts nan CC year' data' sc' th c' gt t0 cc0' carbon' r' out' RF' E' X') as [s' [series' [fs' [RY' [AR' [FB' [_ OR']]]]]]].
  unfold run_years, year_list in RY, RY'.
  rewrite <- (Z.add_0_r (d_start c)) in RY at 1. rewrite <- (Z.add_0_r (d_start c')) in RY' at 1.
  destruct (years_trace th c _ _ _ _ RF _ 0%nat _ RY) as (_ & lw & _ & _ & W1 & V1 & _). destruct (years_trace th c' _ _ _ _ RF' _ 0%nat _ RY') as (_ & lw' & _ & _ & W1' & V1' & _).
  cbn [l_h] in W1, W1'. assert (G1 := trace_gas CC year sc c _ _ _ _ W1). assert (G1' := trace_gas CC year' sc' c' _ _ _ _ W1').
  destruct (trace_past CC year sc c _ _ _ _ W1 ST) as [K1 [K2 _]]. destruct (trace_past CC year' sc' c' _ _ _ _ W1') as [K1' [K2' _]]; [rewrite ST', ST, start; reflexivity|].
  rewrite ST' in RY'.
  assert (IN : forall n, (n <= M)%nat -> nth_error (d_luc c) n = nth_error (d_luc c') n /\ nth_error (d_sun c) n = nth_error (d_sun c') n /\
    nth_error (d_vn c) n = nth_error (d_vn c') n /\ nth_error (d_vs c) n = nth_error (d_vs c') n).
  { intros n Ln. destruct SP. unfold rows_agree in *. auto. }
  match type of RY with driver_years _ _ _ _ _ _ _ ?si _ = _ => match type of RY' with driver_years _ _ _ _ _ _ _ ?si' _ = _ =>
    assert (J := joint th c c' (any_emi2conc CC year sc) (any_emi2conc CC year' sc') (any_conc2forc CC sc) (any_conc2forc CC sc') M rel RF RF' ST' IN rel_e2c rel_c2f h_feedbacks (S M) 0 (d_years c) (d_years c') si si' s s' eq_refl
      (sp_rows _ _ _ _ _ SP) (sp_rows' _ _ _ _ _ SP) eq_refl (conj SC near_reset) eq_refl RY RY') end end.
  destruct J as (tr & tr' & h0 & h0' & l & l' & X1 & X2 & X3 & X4 & X5 & X6 & X7 & X8).
  exists s, s', series, series', fs, fs', tr, tr', h0, h0', l, l'. repeat (split; [assumption|]). split.
  { eapply filled_complete; [|exact X3]. change tr with ([] ++ tr). eapply (steps_filled th c DO); [exact X1 | reflexivity | apply filled_init | cbn; lia]. }
  split.
  { eapply filled_complete; [|exact X4]. change tr' with ([] ++ tr'). eapply (steps_filled th c' DO); [exact X2 | reflexivity | apply filled_init | cbn; lia]. }
  split; [exact X3|]. split; [exact X4|]. split; [intros k L; apply X5; lia|]. repeat (split; [assumption|]). split; [exists lw|exists lw']; split; assumption.
Qed.

Lemma c91_arrays carbon carbon' r r' out out' : (forall k, In k ["emissions"; "concentrations"; "forcing"; "carbon cycle"] -> ~ In k (output_names (t_names th))) ->
  any_run nan CC year data sc th c gt t0 cc0 true carbon r = out -> any_run nan CC year' data' sc' th c' gt t0 cc0' true carbon' r' = out' ->
  o_exn out = None -> o_exn out' = None ->
  forall o, In o (output_names (t_names th)) -> exists v v', in_array (o_results out) o v /\ in_array (o_results out') o v' /\
    List.length v = d_years c /\ List.length v' = d_years c' /\ rows_agree M v v'.
Proof.
  intros NF E E' X X' o I. destruct (runs _ _ _ _ _ _ E E' X X') as (s & s' & series & series' & fs & fs' & tr & tr' & h0 & h0' & l & l' & AR & AR' & OR & OR' & C & C' & L & L' & EQ & _).
  destruct (frames_of nan CC data _ _ _ _ _ AR) as (f1 & f2 & f3 & rest & _ & _ & _ & FS & RS & WFS). destruct (frames_of nan CC data' _ _ _ _ _ AR') as (g1 & g2 & g3 & rest' & _ & _ & _ & FS' & RS' & WFS').
  destruct (C o I) as (col & C1 & C2 & C3). destruct (C' o I) as (col' & C1' & C2' & C3').
  assert (NO : forall (fs0 : dict (frame A)) rest0 a b d, fs0 = [("emissions", a); ("concentrations", b); ("forcing", d)] ++ rest0 -> (rest0 = [] \/ exists v, rest0 = [("carbon cycle", v)]) ->
    dget (map (fun kv : string * frame A => (fst kv, Fr (snd kv))) fs0) o = None).
  { intros fs0 rest0 a b d -> Q. assert (O : forall k, In k ["emissions"; "concentrations"; "forcing"; "carbon cycle"] -> o <> k) by (intros k J ->; exact (NF k J I)).
    assert (O1 := O "emissions" ltac:(cbn; tauto)). assert (O2 := O "concentrations" ltac:(cbn; tauto)). assert (O3 := O "forcing" ltac:(cbn; tauto)). assert (O4 := O "carbon cycle" ltac:(cbn; tauto)).
    apply dget_None_keys. change (~ In o (map fst (map (fun kv : string * frame A => (fst kv, Fr (snd kv))) ([("emissions", a); ("concentrations", b); ("forcing", d)] ++ rest0)))).
    rewrite map_map. cbn [fst]. destruct Q as [->|[v ->]]; cbn; intuition congruence. }
  exists col, col'. unfold in_array. rewrite OR, OR', !dget_dupdate by assumption. rewrite (NO _ _ _ _ _ FS RS), (NO _ _ _ _ _ FS' RS').
  split; [exact C1|]. split; [exact C1'|]. split; [congruence|]. split; [congruence|]. intros k Lk. specialize (EQ k Lk).
  assert (LT := sp_rows _ _ _ _ _ SP). destruct (nth_error tr k) as [[v f]|] eqn:T1; [|apply nth_error_None in T1; lia]. rewrite (C3 k v f T1), (C3' k v f (eq_sym EQ)).
  unfold cell. rewrite (sp_sun _ _ _ _ _ SP k Lk), (sp_vn _ _ _ _ _ SP k Lk), (sp_vs _ _ _ _ _ SP k Lk). reflexivity.
Qed.

Lemma year_rows : rows_agree M (year_values (nystart p) (nyend p)) (year_values (nystart p') (nyend p')).
Proof.
  destruct rows_p as [L L']. unfold years_of in *. rewrite P_Gas2.zrange_len in L, L'. intros i Li. unfold year_values. rewrite !nth_error_map, !P_Gas4.seq_nth_error by lia.
  rewrite start. reflexivity.
Qed.
Lemma erf_rows k v v' st st' f f' : forcing_frame p st (c_erf sc) = Ok f -> forcing_frame p' st' (c_erf sc') = Ok f' ->
  dget (fr_cols (c_erf sc)) k = Some v -> dget (fr_cols (c_erf sc')) k = Some v' -> rows_agree M v v'.
Proof.
  intros F1 F1' V V' i Li. destruct rows_p as [L L']. unfold years_of in L, L'. rewrite P_Gas2.zrange_len in L, L'.
  assert (G1 := get_row (c_erf sc) k v _ _ (erf_index _ _ _ _ F1) V i ltac:(lia)). assert (G2 := get_row (c_erf sc') k v' _ _ (erf_index _ _ _ _ F1') V' i ltac:(lia)).
  rewrite start in G2. rewrite (proj2 AF k (nystart p + Z.of_nat i)%Z ltac:(unfold until; lia)) in G1. rewrite G1 in G2. unfold key in G2.
  destruct (nth_error v i), (nth_error v' i); congruence.
Qed.

Lemma c91_forcing carbon carbon' r r' out out' : wf gt -> (exists k, In k (dkeys (fr_cols (c_erf sc)))) ->
  (forall k, In k reserved -> ~ In k (dkeys gt) /\ ~ In k (dkeys (fr_cols (c_erf sc)))) ->
  any_run nan CC year data sc th c gt t0 cc0 true carbon r = out -> any_run nan CC year' data' sc' th c' gt t0 cc0' true carbon' r' = out' ->
  o_exn out = None -> o_exn out' = None -> frames_until M (o_results out) (o_results out') "forcing".
Proof.
  intros W NE RS E E' X X'.
  destruct (runs _ _ _ _ _ _ E E' X X') as (s & s' & series & series' & fs & fs' & tr & tr' & h0 & h0' & l & l' & AR & AR' & OR & OR' & _ & _ & _ & _ & _ & RL & H1 & H2 & KF & KC & KF' & KC' & KG & KG' & _).
  destruct (frames_of nan CC data _ _ _ _ _ AR) as (f & em & cf & rest & F1 & _ & _ & FS & _ & WFS). destruct (frames_of nan CC data' _ _ _ _ _ AR') as (f' & em' & cf' & rest' & F1' & _ & _ & FS' & _ & WFS').
  exists f, f'. split; [rewrite OR, dget_dupdate by exact WFS; rewrite FS; reflexivity|]. split; [rewrite OR', dget_dupdate by exact WFS'; rewrite FS'; reflexivity|].
  destruct (trace_past CC year sc c _ _ _ _ H1 ST) as [_ [P2 [_ P4]]].
  assert (ST2 : d_start c' = nystart p') by (rewrite ST', ST, start; reflexivity). destruct (trace_past CC year' sc' c' _ _ _ _ H2 ST2) as [_ [P2' [_ P4']]].
  destruct (@exists_last _ (dkeys (fr_cols (c_erf sc)))) as [cs [last KE]]. { destruct NE as [k I]. intros Q. rewrite Q in I. destruct I. }
  assert (KE' : dkeys (fr_cols (c_erf sc')) = cs ++ [last]) by (rewrite <- (proj1 AF); exact KE).
  assert (RS' : forall k, In k reserved -> ~ In k (dkeys gt) /\ ~ In k (dkeys (fr_cols (c_erf sc')))) by (intros k I; rewrite <- (proj1 AF); apply RS; exact I).
  destruct (c74_run p gt (c_erf sc) (snd (l_h s)) f cs last W WF RS KF KE F1) as [_ [C2 [_ [C4 [C5 C6]]]]].
  destruct (c74_run p' gt (c_erf sc') (snd (l_h s')) f' cs last W WF' RS' KF' KE' F1') as [_ [D2 [_ [D4 [D5 D6]]]]].
  assert (EK : dkeys (fr_cols f) = dkeys (fr_cols f')).
  { rewrite C2, D2. f_equal. f_equal. apply filter_ext. intros k. rewrite (keys_dmem _ _ k (proj1 AF)). reflexivity. }
  split; [exact EK|]. intros k v v' V V' i Li.
  assert (I : In k (dkeys (fr_cols f))) by (apply dget_In_keys, dmem_true; eauto).
  assert (RC := reset_columns p gt (c_erf sc) (proj1 (RS "Total_forcing" ltac:(cbn; auto)))). rewrite <- KF in RC. rewrite C2, <- RC in I. unfold forcing_columns in I.
  apply in_map_iff in I. destruct I as [k0 [<- I]].
  assert (Q : k0 = "Year" \/ In k0 (dkeys (s_forc (snd (l_h s)))) \/ In k0 (dkeys (fr_cols (c_erf sc)))).
  { destruct I as [->|I]; [right; right; rewrite KE; apply in_or_app; right; left; reflexivity|]. apply in_app_iff in I. destruct I as [I|[<-|I]]; [tauto|tauto|]. right; right. rewrite KE. apply in_or_app. left; exact I. }
  destruct Q as [->|[Q|Q]].
  - change (forcing_label "Year") with "Year" in *. rewrite C4 in V. rewrite D4 in V'. injection V as <-. injection V' as <-. apply year_rows. exact Li.
  - rewrite C5 in V by exact Q. destruct RL as [_ [_ [_ NF]]].
    assert (K0 : dkeys (s_forc (snd h0)) = dkeys (s_forc (snd h0'))) by (apply near_keys with (M := M); exact NF).
    assert (Q' : In k0 (dkeys (s_forc (snd (l_h s'))))) by (rewrite P2', <- K0, <- P2; exact Q). rewrite D5 in V' by exact Q'.
    rewrite P2 in Q. assert (NG := near_get M _ _ k0 NF). apply dget_In_keys, dmem_true in Q. destruct Q as [w Q]. rewrite Q in NG.
    destruct (dget (s_forc (snd h0')) k0) as [w'|] eqn:Q2; [|contradiction].
    rewrite (P4 k0 w v i Q V) by lia. rewrite (P4' k0 w' v' i Q2 V') by lia. apply NG. exact Li.
  - rewrite C6 in V by exact Q. assert (Q' : In k0 (dkeys (fr_cols (c_erf sc')))) by (rewrite <- (proj1 AF); exact Q). rewrite D6 in V' by exact Q'.
    exact (erf_rows _ _ _ _ _ _ _ F1 F1' V V' i Li).
Qed.

Lemma c91_concentrations carbon carbon' r r' out out' : wf gt -> wf (fr_cols (c_pc sc)) -> wf (fr_cols (c_pc sc')) -> agree_on (until y) (c_pc sc) (c_pc sc') ->
  (forall k, In k (dkeys (fr_cols (c_pc sc))) -> dmem (fr_cols (c_erf sc)) k = true) -> (exists k, In k (dkeys (fr_cols (c_pc sc)))) ->
  ~ In "Year" (dkeys gt ++ dkeys (fr_cols (c_pc sc))) ->
  any_run nan CC year data sc th c gt t0 cc0 true carbon r = out -> any_run nan CC year' data' sc' th c' gt t0 cc0' true carbon' r' = out' ->
  o_exn out = None -> o_exn out' = None -> frames_until M (o_results out) (o_results out') "concentrations".
Proof.
  intros W WP WP' AG PE NE NY E E' X X'.
  destruct (runs _ _ _ _ _ _ E E' X X') as (s & s' & series & series' & fs & fs' & tr & tr' & h0 & h0' & l & l' & AR & AR' & OR & OR' & _ & _ & _ & _ & _ & RL & H1 & H2 & KF & KC & KF' & KC' & KG & KG' & _).
  destruct (frames_of nan CC data _ _ _ _ _ AR) as (fo & em & f & rest & _ & _ & F1 & FS & _ & WFS). destruct (frames_of nan CC data' _ _ _ _ _ AR') as (fo' & em' & f' & rest' & _ & _ & F1' & FS' & _ & WFS').
  exists f, f'. split; [rewrite OR, dget_dupdate by exact WFS; rewrite FS; reflexivity|]. split; [rewrite OR', dget_dupdate by exact WFS'; rewrite FS'; reflexivity|].
  destruct (trace_past CC year sc c _ _ _ _ H1 ST) as [P1 [_ [P3 _]]].
  assert (ST2 : d_start c' = nystart p') by (rewrite ST', ST, start; reflexivity). destruct (trace_past CC year' sc' c' _ _ _ _ H2 ST2) as [P1' [_ [P3' _]]].
  destruct RL as [_ [_ [EC _]]].
  assert (CK : forall k, In k (dkeys (s_conc (snd (l_h s)))) -> In k (dkeys gt) /\ dmem (fr_cols (c_erf sc)) k = false) by (intros k I; rewrite KC in I; apply reset_conc_keys; exact I).
  assert (ND : NoDup ("Year" :: dkeys (s_conc (snd (l_h s))) ++ dkeys (fr_cols (c_pc sc)))).
  { constructor; [intros I; apply NY; apply in_app_iff in I; apply in_or_app; destruct I as [I|I]; [left; apply CK; exact I|right; exact I]|].
    assert (WC : NoDup (dkeys (s_conc (snd (l_h s))))) by (rewrite KC; apply reset_conc_wf; exact W). clear -WC WP CK PE.
    assert (DJ : forall k, In k (dkeys (s_conc (snd (l_h s)))) -> ~ In k (dkeys (fr_cols (c_pc sc)))) by (intros k I J; apply PE in J; apply CK in I; destruct I; congruence).
    clear CK PE. revert WC DJ. generalize (dkeys (s_conc (snd (l_h s)))) as ks. induction ks as [|k ks IH]; intros WC DJ; [exact WP|]. inversion WC; subst. cbn [app]. constructor.
    - intros I. apply in_app_iff in I. destruct I as [I|I]; [auto|]. apply (DJ k); [left; reflexivity|exact I].
    - apply IH; [assumption|]. intros k0 I0. apply DJ. right; exact I0. }
  assert (SK : dkeys (s_conc (snd (l_h s'))) = dkeys (s_conc (snd (l_h s)))) by congruence.
  assert (ND' : NoDup ("Year" :: dkeys (s_conc (snd (l_h s'))) ++ dkeys (fr_cols (c_pc sc')))) by (rewrite SK, <- (proj1 AG); exact ND).
  assert (NG : ~ In "Year" (dkeys gt)) by (intros I; apply NY, in_or_app; left; exact I).
  destruct (concentration_spec nan p _ _ f ND ltac:(rewrite KG; exact NG) NE F1) as [_ [I1 [C1 [C2 [C3 C4]]]]].
  destruct (concentration_spec nan p' _ _ f' ND' ltac:(rewrite KG'; exact NG) ltac:(rewrite <- (proj1 AG); exact NE) F1') as [_ [I2 [D1 [D2 [D3 D4]]]]].
  split; [rewrite C1, D1, KG, KG', SK, <- (proj1 AG); reflexivity|]. intros k v v' V V' i Li.
  assert (I : In k (dkeys (fr_cols f))) by (apply dget_In_keys, dmem_true; eauto). rewrite C1 in I. unfold concentration_columns in I.
  destruct rows_p as [LY LY']. unfold years_of in LY, LY'. rewrite P_Gas2.zrange_len in LY, LY'.
  destruct I as [<-|I]; [rewrite C2 in V; rewrite D2 in V'; injection V as <-; injection V' as <-; apply year_rows; exact Li|]. apply filter_In in I. destruct I as [IG I]. apply smem_In, in_app_iff in I.
  destruct I as [I|I].
  - assert (I' := I). rewrite <- SK in I'. apply dget_In_keys, dmem_true in I, I'. destruct I as [d E0], I' as [d' E0'].
    rewrite (C3 k d IG E0) in V. rewrite KG, <- KG' in IG. rewrite (D3 k d' IG E0') in V'. inversion V; subst v. inversion V'; subst v'. clear V V'.
    unfold conc_series. rewrite !nth_error_map. unfold years_of. rewrite !P_Gas2.zrange_nth by lia. cbn [option_map]. f_equal. rewrite start.
    assert (G1 := P3 k (nystart p + Z.of_nat i)%Z ltac:(lia)). assert (G2 := P3' k (nystart p + Z.of_nat i)%Z ltac:(rewrite start; lia)).
    assert (G3 : conc_get (snd h0') k (nystart p + Z.of_nat i)%Z = conc_get (snd h0) k (nystart p + Z.of_nat i)%Z) by (unfold conc_get; rewrite EC; reflexivity).
    rewrite <- G3, <- G2 in G1. unfold conc_get in G1. rewrite E0, E0' in G1. cbn [key rbind] in G1.
    unfold key in G1. destruct (yget d _), (yget d' _); congruence.
  - assert (I' := I). rewrite (proj1 AG) in I'. rewrite (C4 k IG I) in V. rewrite KG, <- KG' in IG. rewrite (D4 k IG I') in V'.
    assert (G1 := get_row (c_pc sc) k v _ _ I1 V i ltac:(lia)). assert (G2 := get_row (c_pc sc') k v' _ _ I2 V' i ltac:(lia)). rewrite start in G2.
    rewrite (proj2 AG k (nystart p + Z.of_nat i)%Z ltac:(unfold until; lia)) in G1. rewrite G1 in G2. unfold key in G2. destruct (nth_error v i), (nth_error v' i); congruence.
Qed.
End Runs.
