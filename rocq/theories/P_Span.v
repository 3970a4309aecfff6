(** * P_Span: years of two runs of different lengths (C91) *)
From Coq Require Import Lia.
From Verif Require Import PyBase PyBaseFacts Num M_Gas M_TwoLayer M_Forcing M_Carbon M_CarbonBack M_Driver M_Results Spec_Gas Spec_Driver Spec_Reader Spec_Results Spec_Coupled Spec_Span
  P_Gas3 P_Results P_Results2 P_Driver P_Driver2 P_Driver3 P_Driver4 P_Coupled P_Coupled2 P_Coupled5 P_Coupled6.
From Verif Require P_Input2 P_Gas2 Spec_Forc.

(** ** The loop *)
Section Loop.
Context {A : Type} {N : Num A} {T : Type} (th : thermal A T) (c c' : inst A) {H : Type}
  (e2c e2c' : H -> Z -> option (dict A) -> result H) (c2f c2f' : H -> Z -> A -> A -> result (H * (A * A * A * A))) (M : nat) (Rel : H -> H -> Prop).
Hypothesis RF : d_rf c = None.
Hypothesis RF' : d_rf c' = None.
Hypothesis ST : d_start c' = d_start c.
Hypothesis IN : forall n, (n <= M)%nat -> nth_error (d_luc c) n = nth_error (d_luc c') n /\ nth_error (d_sun c) n = nth_error (d_sun c') n /\
  nth_error (d_vn c) n = nth_error (d_vn c') n /\ nth_error (d_vs c) n = nth_error (d_vs c') n.
Hypothesis HE : forall n h h' fb g g', (n <= M)%nat -> Rel h h' -> e2c h (d_start c + Z.of_nat n)%Z fb = Ok g -> e2c' h' (d_start c + Z.of_nat n)%Z fb = Ok g' -> Rel g g'.
Hypothesis HC : forall n h h' luc sun g g' q q', (n <= M)%nat -> Rel h h' -> c2f h (d_start c + Z.of_nat n)%Z luc sun = Ok (g, q) -> c2f' h' (d_start c + Z.of_nat n)%Z luc sun = Ok (g', q') ->
  Rel g g' /\ q = q'.

Lemma joint fl d : forall n m m' (s s' : loop A T H) sf sf', (n + d = S M)%nat -> (d <= m)%nat -> (d <= m')%nat ->
  l_t s = l_t s' -> Rel (l_h s) (l_h s') -> l_values s = l_values s' ->
  driver_years T th c H e2c c2f fl s (zrange (d_start c + Z.of_nat n) m) = (sf, None) ->
  driver_years T th c' H e2c' c2f' fl s' (zrange (d_start c + Z.of_nat n) m') = (sf', None) ->
  exists tr tr' h0 h0' l l', steps th c e2c c2f fl s n tr sf /\ steps th c' e2c' c2f' fl s' n tr' sf' /\ List.length tr = m /\ List.length tr' = m' /\
    (forall k, (n + k <= M)%nat -> nth_error tr k = nth_error tr' k) /\
    Rel h0 h0' /\ htrace c e2c c2f (S M) h0 l (l_h sf) /\ htrace c' e2c' c2f' (S M) h0' l' (l_h sf').
Proof.
  induction d as [|d IH]; intros n m m' s s' sf sf' ND Lm Lm' ET EH EV E E'.
  - assert (n = S M) by lia. subst n. rewrite <- ST in E'.
    destruct (years_trace th c e2c c2f fl m RF s (S M) sf E) as (tr & l & X1 & X2 & X3 & _).
    destruct (years_trace th c' e2c' c2f' fl m' RF' s' (S M) sf' E') as (tr' & l' & Y1 & Y2 & Y3 & _).
    exists tr, tr', (l_h s), (l_h s'), l, l'. repeat (split; [assumption|]). split; [intros k Lk; lia|]. auto.
  - destruct m as [|m]; [lia|]. destruct m' as [|m']; [lia|]. assert (Ln : (n <= M)%nat) by lia.
    rewrite P_Driver.zrange_S in E, E'. cbn [driver_years] in E, E'.
    destruct (driver_year T th c H e2c c2f fl s (d_start c + Z.of_nat n)%Z) as [s1|e] eqn:D; [|discriminate].
    destruct (driver_year T th c' H e2c' c2f' fl s' (d_start c + Z.of_nat n)%Z) as [s1'|e] eqn:D'; [|discriminate].
    replace (d_start c + Z.of_nat n + 1)%Z with (d_start c + Z.of_nat (S n))%Z in E, E' by lia.
    destruct (year_parts th c e2c c2f fl _ _ _ D) as (v & f & i & h & T1 & V & Hh & AY & B1 & B2 & P). rewrite RF in P. rewrite row_of in *.
    destruct P as (h1 & luc & sun & P1 & P2 & P3 & P4). subst h.
    rewrite <- ST in D'. destruct (year_parts th c' e2c' c2f' fl _ _ _ D') as (v' & f' & i' & h' & T1' & V' & Hh' & AY' & B1' & B2' & P'). rewrite RF' in P'. rewrite row_of in *.
    rewrite ST in P'. destruct P' as (h1' & luc' & sun' & P1' & P2' & P3' & P4'). subst h'.
    destruct (IN n Ln) as [I1 [I2 [I3 I4]]].
    assert (luc' = luc) by congruence. assert (sun' = sun) by congruence. subst luc' sun'.
    rewrite <- EV in P1'. assert (R1 := HE _ _ _ _ _ _ Ln EH P1 P1'). destruct (HC _ _ _ _ _ _ _ _ _ Ln R1 P4 P4') as [R2 QQ]. injection QQ as Q2 Q3 Q4 Q5.
    assert (EI : i' = i). { destruct i as [w nh sh vn vs], i' as [w' nh' sh' vn' vs']. cbn in *. congruence. }
    subst i'. rewrite <- ET, T1 in T1'. injection T1' as QT QV. subst v' f'.
    destruct (IH (S n) m m' s1 s1' sf sf') as (tr & tr' & h0 & h0' & l & l' & X1 & X2 & X3 & X4 & X5 & X6 & X7 & X8); try assumption; try lia; [congruence|].
    exists ((v, f) :: tr), ((v, f) :: tr'), h0, h0', l, l'.
    split; [econstructor; eassumption|]. split; [econstructor; eassumption|]. split; [cbn; lia|]. split; [cbn; lia|].
    split; [intros [|k] Lk; [reflexivity|]; cbn [nth_error]; apply X5; lia|]. auto.
Qed.
End Loop.

(** ** Emissions to concentrations *)
Section Emi.
Context {A : Type} {N : Num A}.
Variables (S Fb : Type) (co2 co2' : S -> Z -> A -> Fb -> S * A) (RS : S -> S -> Prop).
Variables (p : hpam A) (conc emis nat4 nat2 : frame A) (y : Z) (f0 f0' : dict (list A)).
Hypothesis CO : forall cc cc' em fb, RS cc cc' -> RS (fst (co2 cc y em fb)) (fst (co2' cc' y em fb)) /\ snd (co2 cc y em fb) = snd (co2' cc' y em fb).
(** the same apart from forcing *)
Definition like (st st' : hst A) : Prop := s_gas st = s_gas st' /\ s_conc st = s_conc st' /\ s_forc st = f0 /\ s_forc st' = f0'.
Definition rlike (a b : result (hst A)) : Prop := match a, b with Ok st, Ok st' => like st st' | Err e, Err e' => e = e' | _, _ => False end.
Definition rpair (a b : result (S * hst A)) : Prop :=
  match a, b with Ok (cc, st), Ok (cc', st') => RS cc cc' /\ like st st' | Err e, Err e' => e = e' | _, _ => False end.

Lemma like_conc_set st st' t v : like st st' -> rlike (conc_set st t y v) (conc_set st' t y v).
Proof.
  intros [G [C [F F']]]. unfold conc_set. rewrite <- C. destruct (dget (s_conc st) t); cbn; [|reflexivity]. split; [exact G|]. split; [reflexivity|]. auto.
Qed.
Lemma like_fill avoid st st' : like st st' -> rlike (fill_one_row conc y avoid st) (fill_one_row conc y avoid st').
Proof.
  intros L. unfold fill_one_row. replace (s_conc st') with (s_conc st) by apply L.
  assert (Q : forall l a b, rlike a b -> rlike (fold_left (fun acc t => do s <- acc; if smem t avoid then Ok s else if dmem (fr_cols conc) t then do v <- fr_get conc t y; conc_set s t y v else conc_set s t y (nofZ 0)) l a)
     (fold_left (fun acc t => do s <- acc; if smem t avoid then Ok s else if dmem (fr_cols conc) t then do v <- fr_get conc t y; conc_set s t y v else conc_set s t y (nofZ 0)) l b)).
  { induction l as [|t l IH]; intros a b R; [exact R|]. cbn [fold_left]. apply IH. destruct a as [a|e], b as [b|e']; cbn in R; try contradiction; [|exact R]. cbn [rbind].
    destruct (smem t avoid); [exact R|]. destruct (dmem _ t); [|apply like_conc_set; exact R]. destruct (fr_get conc t y); cbn [rbind]; [apply like_conc_set; exact R|reflexivity]. }
  apply Q. exact L.
Qed.
Lemma like_co2 cc cc' fb st st' : RS cc cc' -> like st st' -> rpair (co2_year S Fb co2 emis cc y fb st) (co2_year S Fb co2' emis cc' y fb st').
Proof.
  intros R L. unfold co2_year, co2_emission. rewrite <- (proj1 L). destruct (fr_get emis "CO2_FF" y); cbn [rbind]; [|reflexivity]. destruct (fr_get emis "CO2_AFOLU" y); cbn [rbind]; [|reflexivity].
  destruct (key "CO2" _) as [g|]; cbn [rbind]; [|reflexivity]. cbv zeta. destruct (CO cc cc' (a + a0 + g_nat g)%num fb R) as [R1 E]. rewrite <- E.
  assert (Q := like_conc_set st st' "CO2" (snd (co2 cc y (a + a0 + g_nat g)%num fb)) L).
  destruct (conc_set st "CO2" y _) as [a1|], (conc_set st' "CO2" y _) as [b1|]; cbn [rbind] in *; cbn in Q |- *; try contradiction; auto.
Qed.
Lemma like_emi2conc fb cc cc' st st' : RS cc cc' -> like st st' ->
  rpair (emi2conc S Fb co2 p conc emis nat4 nat2 y fb cc st) (emi2conc S Fb co2' p conc emis nat4 nat2 y fb cc' st').
Proof.
  intros R L. unfold emi2conc. destruct (conc_run p).
  { assert (Q := like_fill [] st st' L). destruct (fill_one_row conc y [] st), (fill_one_row conc y [] st'); cbn in Q |- *; try contradiction; auto. }
  destruct (Z.ltb y (emstart p)).
  { assert (Q := like_co2 cc cc' fb st st' R L). destruct (co2_year S Fb co2 emis cc y fb st) as [[c1 a1]|], (co2_year S Fb co2' emis cc' y fb st') as [[c1' a1']|]; cbn in Q; try contradiction; [|exact Q].
    cbn [rbind fst snd]. destruct Q as [R1 L1]. assert (Q := like_fill ["CO2"] a1 a1' L1). destruct (fill_one_row conc y _ a1), (fill_one_row conc y _ a1'); cbn in Q |- *; try contradiction; auto. }
  assert (L0 : like (add_row_of_zeros y st) (add_row_of_zeros y st')) by (destruct L as [G [C F]]; unfold add_row_of_zeros, like, set_conc; cbn; rewrite <- C; auto).
  assert (Q : forall l a b, rpair a b -> rpair (fold_left (emi2conc_tracer S Fb co2 p conc emis nat4 nat2 y fb) l a) (fold_left (emi2conc_tracer S Fb co2' p conc emis nat4 nat2 y fb) l b)).
  { clear - CO. induction l as [|t l IH]; intros a b R; [exact R|]. cbn [fold_left]. apply IH. destruct a as [[cc st]|e], b as [[cc' st']|e']; cbn in R; try contradiction; [|exact R].
    destruct R as [R L]. unfold emi2conc_tracer. cbn [rbind]. rewrite <- (proj1 L). destruct (key t (dget (s_gas st) t)) as [g|]; cbn [rbind]; [|reflexivity].
    destruct (String.eqb (g_unit g) "-"); [split; assumption|]. destruct (String.eqb t "CO2"); [apply like_co2; assumption|].
    assert (EC : conc_get st' t (y - 1) = conc_get st t (y - 1)) by (unfold conc_get; rewrite <- (proj1 (proj2 L)); reflexivity). rewrite EC.
    destruct (if Z.gtb y (nystart p) then _ else _) as [pv|]; cbn [rbind]; [|reflexivity]. cbv zeta.
    destruct (if String.eqb t "CH4" then _ else _) as [[g' q']|]; cbn [rbind]; [|reflexivity]. destruct (fr_get emis t y) as [e|]; cbn [rbind]; [|reflexivity].
    assert (L1 : like (set_gas st (dset (s_gas st) t g')) (set_gas st' (dset (s_gas st) t g'))) by (destruct L as [G [C F]]; unfold like, set_gas; cbn; auto).
    assert (Q := like_conc_set _ _ t (scalar_step (g_beta g') q' (e + g_nat g')%num pv) L1).
    destruct (conc_set (set_gas st _) t y _), (conc_set (set_gas st' _) t y _); cbn in Q |- *; try contradiction; auto. }
  replace (s_conc st') with (s_conc st) by apply L. apply Q. split; assumption.
Qed.
End Emi.

(** ** Concentrations to forcing *)
Section Forc.
Context {A : Type} {N : Num A}.
Variables (p : hpam A) (conc emis erf : frame A) (pert : option (ptable A)) (y : Z) (M : nat).
Hypothesis IX : (forc_ix p y <= M)%nat.
Definition near_forc (f f' : dict (list A)) : Prop := Forall2 (fun kv kv' => fst kv = fst kv' /\ rows_agree M (snd kv) (snd kv')) f f'.
Definition near (st st' : hst A) : Prop := s_gas st = s_gas st' /\ s_conc st = s_conc st' /\ near_forc (s_forc st) (s_forc st').
Definition rnear {B} (E : B -> B -> Prop) (a b : result B) : Prop := match a, b with Ok x, Ok x' => E x x' | Err e, Err e' => e = e' | _, _ => False end.

Lemma near_keys f f' : near_forc f f' -> dkeys f = dkeys f'.
Proof. induction 1 as [|kv kv' f f' [E _] _ IH]; [reflexivity|]. unfold dkeys in *. cbn [map]. congruence. Qed.
Lemma near_get f f' k : near_forc f f' -> match dget f k, dget f' k with Some v, Some v' => rows_agree M v v' | None, None => True | _, _ => False end.
Proof.
  induction 1 as [|[a v] [b v'] f f' [E R] _ IH]; [exact I|]. cbn [fst snd] in *. subst b. cbn [dget]. destruct (String.eqb a k); [exact R|exact IH].
Qed.
Lemma near_set f f' k v v' : near_forc f f' -> rows_agree M v v' -> near_forc (dset f k v) (dset f' k v').
Proof.
  intros F R. induction F as [|[a u] [b u'] f f' [E R1] F IH]; [constructor; [split; [reflexivity|exact R]|constructor]|]. cbn [fst snd] in *. subst b. cbn [dset].
  destruct (String.eqb a k); (constructor; [split; [reflexivity|assumption]|assumption]).
Qed.
Lemma near_forc_get st st' t : near st st' -> forc_get p st t y = forc_get p st' t y.
Proof.
  intros [_ [_ F]]. unfold forc_get. assert (Q := near_get _ _ t F). destruct (dget (s_forc st) t), (dget (s_forc st') t); try contradiction; [|reflexivity].
  cbn [key rbind]. rewrite (Q _ IX). reflexivity.
Qed.
Lemma near_forc_set st st' t q : near st st' -> rnear near (forc_set p st t y q) (forc_set p st' t y q).
Proof.
  intros [G [C F]]. unfold forc_set. assert (Q := near_get _ _ t F). destruct (dget (s_forc st) t) as [v|], (dget (s_forc st') t) as [v'|]; try contradiction; [|reflexivity].
  cbn [key rbind]. assert (E := Q _ IX). assert (LL : Nat.ltb (forc_ix p y) (List.length v) = Nat.ltb (forc_ix p y) (List.length v')).
  { destruct (nth_error v (forc_ix p y)) eqn:N1.
    - assert (X1 : nth_error v (forc_ix p y) <> None) by congruence. assert (X2 : nth_error v' (forc_ix p y) <> None) by congruence. apply nth_error_Some in X1, X2.
      apply Nat.ltb_lt in X1, X2. congruence.
    - symmetry in E. apply nth_error_None in N1, E. apply Nat.ltb_ge in N1, E. congruence. }
  rewrite <- LL. destruct (Nat.ltb (forc_ix p y) (List.length v)) eqn:LV; [|reflexivity]. cbn. split; [exact G|]. split; [exact C|]. cbn [set_forc s_forc]. apply near_set; [exact F|].
  apply Nat.ltb_lt in LV. assert (LV' : (forc_ix p y < List.length v')%nat) by (apply Nat.ltb_lt; congruence).
  intros i Li. destruct (Nat.eq_dec i (forc_ix p y)) as [->|Ne]; [|rewrite !set_nth_other by exact Ne; apply Q; exact Li].
  assert (X : forall (l : list A) n q, (n < List.length l)%nat -> nth_error (set_nth n q l) n = Some q) by (clear; induction l as [|x l IH]; intros [|n] q L; cbn in *; try lia; [reflexivity|apply IH; lia]).
  rewrite !X by assumption. reflexivity.
Qed.
Lemma near_conc_get st st' t z : near st st' -> conc_get st' t z = conc_get st t z.
Proof. intros [_ [C _]]. unfold conc_get. rewrite C. reflexivity. Qed.
Lemma near_sarf st st' t : near st st' -> sarf st' t = sarf st t.
Proof. intros [G _]. unfold sarf. rewrite G. reflexivity. Qed.
Lemma near_conc_set st st' t v : near st st' -> rnear near (conc_set st t y v) (conc_set st' t y v).
Proof. intros [G [C F]]. unfold conc_set. rewrite <- C. destruct (dget _ t); cbn; [|reflexivity]. split; [exact G|]. split; [reflexivity|exact F]. Qed.

Ltac both Q := match type of Q with rnear _ ?a ?b => let u := fresh "u" in let u' := fresh "u" in destruct a as [u|], b as [u'|]; cbn [rnear] in Q; try contradiction; [|exact Q]; cbn [rbind] end.
Definition near4 (a b : A * A * A * hst A) : Prop := fst a = fst b /\ near (snd a) (snd b).
Lemma near_three st st' : near st st' -> rnear near4 (forc_three_main p y st) (forc_three_main p y st').
Proof.
  intros L. unfold forc_three_main. rewrite !(near_conc_get st st') by exact L. rewrite !(near_sarf st st') by exact L.
  do 6 (destruct (conc_get _ _ _); cbn [rbind]; [|reflexivity]). do 3 (destruct (sarf _ _); cbn [rbind]; [|reflexivity]). cbv zeta.
  match goal with |- context [forc_set p st "CO2" y ?q] => assert (Q := near_forc_set st st' "CO2" q L) end. both Q.
  match goal with |- context [forc_set p u "CH4" y ?q] => assert (Q1 := near_forc_set u u0 "CH4" q Q) end. both Q1.
  match goal with |- context [forc_set p u1 "N2O" y ?q] => assert (Q2 := near_forc_set u1 u2 "N2O" q Q1) end. both Q2.
  split; [reflexivity|exact Q2].
Qed.
Definition nearq (a b : A * hst A) : Prop := fst a = fst b /\ near (snd a) (snd b).
Lemma near_component luc t st st' : near st st' -> rnear nearq (component p conc emis y luc t st) (component p conc emis y luc t st').
Proof.
  intros L. unfold component. destruct (String.eqb t "LANDUSE"); [split; [reflexivity|exact L]|]. destruct (is_aerosol t).
  { replace (aerosol_forcing p emis st' y t) with (aerosol_forcing p emis st y t) by (unfold aerosol_forcing; rewrite (proj1 L); reflexivity).
    destruct (aerosol_forcing p emis st y t); cbn [rbind]; [split; [reflexivity|exact L]|reflexivity]. }
  rewrite <- (proj1 L). destruct (match dget (s_gas st) t with Some _ => _ | None => _ end).
  { rewrite !(near_conc_get st st') by exact L. destruct (key t _); cbn [rbind]; [|reflexivity]. do 2 (destruct (conc_get _ _ _); cbn [rbind]; [|reflexivity]). split; [reflexivity|exact L]. }
  destruct (String.eqb t "TROP_O3").
  { unfold tropospheric_ozone. replace (trop_o3_conc p conc emis st' y) with (trop_o3_conc p conc emis st y) by (unfold trop_o3_conc; rewrite !(near_conc_get st st') by exact L; reflexivity).
    destruct (trop_o3_conc p conc emis st y) as [o|]; cbn [rbind]; [|reflexivity].
    assert (Q := near_conc_set st st' "TROP_O3" o L). both Q. rewrite !(near_conc_get u u0) by exact Q.
    do 2 (destruct (conc_get _ _ _); cbn [rbind]; [|reflexivity]). rewrite (near_sarf st st') by exact L. destruct (sarf st t); cbn [rbind]; [|reflexivity]. split; [reflexivity|exact Q]. }
  destruct (String.eqb t "STRAT_H2O"); [|split; [reflexivity|exact L]].
  rewrite <- (near_forc_get st st') by exact L. destruct (forc_get _ _ _ _); cbn [rbind]; [|reflexivity]. rewrite (near_sarf st st') by exact L. destruct (sarf st t); cbn [rbind]; [|reflexivity]. split; [reflexivity|exact L].
Qed.
Definition nearr (a b : run4 A) : Prop := r_tot a = r_tot b /\ r_nh a = r_nh b /\ r_sh a = r_sh b /\ r_aero a = r_aero b /\ near (r_st a) (r_st b).
Lemma near_fold {B} (f : result (run4 A) -> B -> result (run4 A)) : (forall a b x, nearr a b -> rnear nearr (f (Ok a) x) (f (Ok b) x)) -> (forall e x, f (Err e) x = Err e) ->
  forall l a b, rnear nearr a b -> rnear nearr (fold_left f l a) (fold_left f l b).
Proof.
  intros F E. induction l as [|x l IH]; intros a b R; [exact R|]. cbn [fold_left]. apply IH. destruct a as [a|e], b as [b|e']; cbn in R; try contradiction; [apply F; exact R|]. rewrite !E. exact R.
Qed.
Lemma near_turn luc a b t : nearr a b -> rnear nearr (tracer_turn p conc emis y luc (Ok a) t) (tracer_turn p conc emis y luc (Ok b) t).
Proof.
  intros R. unfold tracer_turn. cbn [rbind]. destruct (smem t _); [exact R|]. destruct R as [R1 [R2 [R3 [R4 R5]]]].
  assert (Q := near_component luc t _ _ R5). both Q. destruct u as [q s], u0 as [q' s']. destruct Q as [Q1 Q2]. cbn [fst snd] in *. subst q'. cbv zeta.
  assert (Q := near_forc_set s s' t q Q2). both Q. rewrite R1, R2, R3, R4. unfold rnear, nearr. cbn. auto.
Qed.
Lemma near_pert a b row : nearr a b -> rnear nearr (pert_turn p y (Ok a) row) (pert_turn p y (Ok b) row).
Proof.
  intros R. unfold pert_turn. cbn [rbind]. destruct row as [[z t] v]. destruct R as [R1 [R2 [R3 [R4 R5]]]].
  rewrite (keys_dmem _ _ t (near_keys _ _ (proj2 (proj2 R5)))). destruct (dmem _ t); [|unfold rnear, nearr; auto].
  rewrite <- (near_forc_get _ _ t R5). destruct (forc_get _ _ _ _) as [o|]; cbn [rbind]; [|reflexivity].
  assert (Q := near_forc_set _ _ t (o + v)%num R5). both Q. rewrite R1, R2, R3, R4. unfold rnear, nearr. cbn. auto.
Qed.
Lemma near_abs st st' : near st st' -> abs_total p y st = abs_total p y st'.
Proof.
  intros [_ [_ F]]. unfold abs_total. generalize (Ok (nofZ 0) : result A). induction F as [|[k v] [k' v'] f f' [E R] F IH]; intros acc; [reflexivity|]. cbn [fst snd] in *. subst k'.
  cbn [fold_left]. cbn [fst snd]. rewrite (R _ IX). apply IH.
Qed.
Definition nearo (a b : (A * A * A * A) * hst A) : Prop := fst a = fst b /\ near (snd a) (snd b).
Lemma near_conc2forc luc sun st st' : near st st' -> rnear nearo (conc2forc p conc emis erf pert y luc sun st) (conc2forc p conc emis erf pert y luc sun st').
Proof.
  intros L. unfold conc2forc. assert (Q := near_three st st' L). both Q. destruct u as [[[tot nh] sh] s1], u0 as [[[tot' nh'] sh'] s1']. destruct Q as [Q1 Q2]. cbn [fst snd] in *.
  injection Q1 as <- <- <-. rewrite <- (near_keys _ _ (proj2 (proj2 Q2))).
  assert (Q := near_fold (tracer_turn p conc emis y luc) (fun b1 b2 x => near_turn luc b1 b2 x) (fun _ _ => eq_refl) (dkeys (s_forc s1))
    (Ok {| r_tot := tot; r_nh := nh; r_sh := sh; r_aero := nofZ 0; r_st := s1 |}) (Ok {| r_tot := tot; r_nh := nh; r_sh := sh; r_aero := nofZ 0; r_st := s1' |})).
  specialize (Q ltac:(unfold rnear, nearr; cbn; auto)). both Q. clear L Q2.
  destruct (tot_vanilla erf y) as [pre|]; cbn [rbind]; [|reflexivity]. cbv zeta. destruct Q as [R1 [R2 [R3 [R4 R5]]]]. rewrite R1, R2, R3, R4.
  set (a := {| r_tot := _; r_nh := _; r_sh := _; r_aero := _; r_st := r_st u |}). set (a' := {| r_tot := _; r_nh := _; r_sh := _; r_aero := _; r_st := r_st u0 |}).
  assert (RA : nearr a a') by (unfold nearr; cbn; auto).
  assert (Q : rnear nearr (match pert with None => Ok a | Some pt => add_forcing_pert p pt y a end) (match pert with None => Ok a' | Some pt => add_forcing_pert p pt y a' end)).
  { destruct pert as [pt|]; [|exact RA]. unfold add_forcing_pert. apply near_fold; [apply near_pert|reflexivity|exact RA]. }
  both Q. clear RA. destruct Q as [T1 [T2 [T3 [T4 T5]]]].
  match goal with |- rnear _ (rbind ?x _) (rbind ?x' _) => assert (Q : rnear nearr x x') end.
  { destruct (just_one p) as [j|]; [|unfold rnear, nearr; auto]. rewrite <- (near_forc_get _ _ j T5). destruct (forc_get _ _ _ _); cbn [rbind]; [|reflexivity]. unfold rnear, nearr. cbn. auto. }
  both Q. destruct Q as [V1 [V2 [V3 [V4 V5]]]]. rewrite V1.
  assert (Q := near_forc_set _ _ "Total_forcing" (r_tot u4) V5). both Q. rewrite <- (near_abs _ _ Q). destruct (abs_total _ _ _); cbn [rbind]; [|reflexivity].
  split; cbn [fst snd]; [rewrite V2, V3, V4; reflexivity|exact Q].
Qed.
End Forc.
