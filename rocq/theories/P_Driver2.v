(** * P_Driver2: forcing runs, reruns, feedback lag, files *)
From Verif Require Import PyBase PyBaseFacts Num M_Gas M_TwoLayer M_UDM M_Forcing M_Driver Spec_Driver P_Forc P_Driver.

Section Facts.
Context {A : Type} {N : Num A}.
Local Open Scope num_scope.

Section Runs.
Context {T : Type} (th : thermal A T).
Hypothesis DO : distinct_outputs (t_names th).
Context {H : Type} (emi2conc : H -> Z -> option (dict A) -> result H)
  (conc2forc : H -> Z -> A -> A -> result (H * (A * A * A * A)))
  (add_results : H -> bool -> dict (list A) -> result (dict (frame A)))
  (fl : option (list string)).
Let RUN c := run T th c H emi2conc conc2forc add_results fl.
Let YEARS c := run_years T th c H emi2conc conc2forc fl.

(** ** forcing runs *)
Lemma forcing_run_dict c rf t0 h0 carbon r s e : d_rf c = Some rf -> YEARS c t0 h0 r = (s, e) ->
  RUN c t0 h0 true carbon r = {| o_results := l_res s; o_handler := l_h s; o_files := []; o_exn := e |}.
Proof. intros R E. unfold RUN, run. fold (YEARS c). rewrite E, R. destruct e; reflexivity. Qed.

Lemma forced_years c rf : d_rf c = Some rf -> forall tr n s tr0, List.length tr0 = n ->
  filled th c tr0 (l_res s) -> (n + List.length tr <= d_years c)%nat -> forced th c rf n (l_t s) tr ->
  (forall m v f o, nth_error tr m = Some (v, f) -> In o (output_names (t_names th)) -> cell (t_names th) c o (n + m) v f <> None) ->
  exists s', driver_years T th c H emi2conc conc2forc fl s (zrange (d_start c + Z.of_nat n) (List.length tr)) = (s', None).
Proof.
  intros R. induction tr as [|[v f] tr IH]; intros n s tr0 L F B X Y.
  - cbn. eauto.
  - inversion X as [|n' t i f' t' v' tr' YI TY X']; subst n' t f' v' tr'. cbn [List.length] in *. rewrite zrange_S. cbn [driver_years].
    assert (exists r', add_year T th c v f n (l_res s) = Ok r') as (r' & AY).
    { apply add_year_total; [exact DO | |].
      - intros o I. destruct (F o I) as (col & C1 & C2 & _). eexists. split; [exact C1|].
        rewrite app_length, repeat_length. lia.
      - intros o I. specialize (Y 0%nat v f o eq_refl I). now rewrite Nat.add_0_r in Y. }
    destruct YI as (fn & fs & g & w & sn & vn & vs & G & S1 & S2 & S3 & -> & ->).
    assert (driver_year T th c H emi2conc conc2forc fl s (d_start c + Z.of_nat n)%Z =
      Ok {| l_t := t'; l_h := l_h s; l_values := Some v; l_res := r' |}) as ->.
    { unfold driver_year. rewrite R. unfold rf_forc_set. rewrite row_of. apply rf_row_ok in G. rewrite G. cbn [rbind].
      apply iloc_ok in S1. apply iloc_ok in S2. apply iloc_ok in S3. rewrite S1, S2, S3. cbn [rbind]. rewrite TY. cbn [rbind fst snd].
      rewrite AY. reflexivity. }
    replace (d_start c + Z.of_nat n + 1)%Z with (d_start c + Z.of_nat (S n))%Z by lia.
    apply (IH (S n) _ (tr0 ++ [(v, g + sn)])).
    + rewrite app_length. cbn. lia.
    + apply (filled_snoc th c DO tr0 (l_res s)); [exact F | lia | rewrite L; exact AY].
    + lia.
    + exact X'.
    + intros m v0 f0 o M I. replace (S n + m)%nat with (n + S m)%nat by lia. now apply Y.
Qed.

Lemma forcing_run c rf t0 h0 carbon r : d_rf c = Some rf ->
  (o_exn (RUN c t0 h0 true carbon r) = None <->
   exists tr, List.length tr = d_years c /\ forced th c rf 0 t0 tr /\
     forall n v f o, nth_error tr n = Some (v, f) -> In o (output_names (t_names th)) -> cell (t_names th) c o n v f <> None) /\
  (o_exn (RUN c t0 h0 true carbon r) = None ->
   forall tr, List.length tr = d_years c -> forced th c rf 0 t0 tr -> complete (t_names th) c tr (o_results (RUN c t0 h0 true carbon r))).
Proof.
  intros R. destruct (YEARS c t0 h0 r) as [s e] eqn:E. rewrite (forcing_run_dict _ _ _ _ _ _ _ _ R E). cbn [o_exn o_results].
  assert (forall tr tr' n t, forced th c rf n t tr -> forced th c rf n t tr' -> List.length tr = List.length tr' -> tr = tr') as FD.
  { induction tr as [|[v f] tr IH]; intros tr' n t X Y L; destruct tr' as [|[v' f'] tr']; try discriminate; [reflexivity|].
    inversion X as [|n1 t1 i f1 t' v1 tr1 YI TY X']; subst. inversion Y as [|n2 t2 i2 f2 t2' v2 tr2 YI2 TY2 Y']; subst.
    destruct (year_input_fun _ _ _ _ _ _ _ YI YI2) as [<- <-]. rewrite TY in TY2. injection TY2 as <- <-.
    f_equal. eapply IH; [exact X' | exact Y' | now injection L]. }
  split; [split|].
  - intros ->. destruct (run_years_complete th c DO _ _ _ _ _ _ _ E) as (tr & X & L & C).
    exists tr. split; [exact L|]. split; [exact (steps_forced th c DO _ _ _ _ _ _ _ _ R X)|].
    intros n v f o NE I. destruct (C o I) as (col & _ & C2 & C3). rewrite <- (C3 n v f NE). apply nth_error_Some. rewrite C2.
    apply nth_error_Some. congruence.
  - intros (tr & L & X & Y).
    destruct (forced_years c rf R tr 0%nat {| l_t := t0; l_h := h0; l_values := None; l_res := init_arrays T th c r |} [] eq_refl)
      as (s' & E'); [apply filled_init | cbn; lia | exact X | intros m v f o M I; now apply Y |].
    unfold YEARS, run_years, year_list in E. rewrite L in E'. cbn [Z.of_nat] in E'. rewrite Z.add_0_r in E'. rewrite E in E'. congruence.
  - intros -> tr L X. destruct (run_years_complete th c DO _ _ _ _ _ _ _ E) as (tr1 & X1 & L1 & C1).
    apply steps_forced with (rf := rf) in X1; [|exact DO | exact R]. rewrite (FD tr tr1 0%nat t0 X X1) by congruence. exact C1.
Qed.

Lemma same_year_input c c' rf rf' n m i f : same_inputs c c' rf rf' n -> (m <= n)%nat -> year_input c rf m i f -> year_input c' rf' m i f.
Proof.
  intros S L (fn & fs & g & w & s & vn & vs & G & S1 & S2 & S3 & E1 & E2). destruct (S m L) as (X1 & X2 & X3 & X4).
  exists fn, fs, g, w, s, vn, vs. rewrite <- X2, <- X3, <- X4. split; [now apply X1 | tauto].
Qed.
Lemma same_cell c c' rf rf' n m o v f : same_inputs c c' rf rf' n -> (m <= n)%nat -> cell (t_names th) c o m v f = cell (t_names th) c' o m v f.
Proof. intros S L. destruct (S m L) as (_ & X2 & X3 & X4). unfold cell. now rewrite X2, X3, X4. Qed.
Lemma forced_prefix c c' rf rf' n : same_inputs c c' rf rf' n -> forall tr tr' k t, forced th c rf k t tr -> forced th c' rf' k t tr' ->
  forall m x y, (k + m <= n)%nat -> nth_error tr m = Some x -> nth_error tr' m = Some y -> x = y.
Proof.
  intros S. induction tr as [|[v f] tr IH]; intros tr' k t X Y m x y L E1 E2; [destruct m; discriminate|].
  destruct tr' as [|[v' f'] tr']; [destruct m; discriminate|].
  inversion X as [|n1 t1 i f1 t' v1 tr1 YI TY X']; subst. inversion Y as [|n2 t2 i2 f2 t2' v2 tr2 YI2 TY2 Y']; subst.
  apply (same_year_input c c' rf rf' n) in YI; [|exact S | lia].
  destruct (year_input_fun _ _ _ _ _ _ _ YI YI2) as [<- <-]. rewrite TY in TY2. injection TY2 as <- <-.
  destruct m as [|m]; cbn in E1, E2; [congruence|]. eapply (IH tr' (Datatypes.S k)); [exact X' | exact Y' | | exact E1 | exact E2]. lia.
Qed.
Lemma c51_causal c c' rf rf' t0 h0 h0' carbon carbon' r r' n :
  d_rf c = Some rf -> d_rf c' = Some rf' -> same_inputs c c' rf rf' n -> (n < d_years c)%nat -> (n < d_years c')%nat ->
  o_exn (RUN c t0 h0 true carbon r) = None -> o_exn (RUN c' t0 h0' true carbon' r') = None ->
  forall o, In o (output_names (t_names th)) -> exists col col',
    dget (o_results (RUN c t0 h0 true carbon r)) o = Some (Arr col) /\ List.length col = d_years c /\
    dget (o_results (RUN c' t0 h0' true carbon' r')) o = Some (Arr col') /\ List.length col' = d_years c' /\
    forall m, (m <= n)%nat -> nth_error col m = nth_error col' m.
Proof.
  intros R R' S L L' E E' o I.
  destruct (forcing_run c rf t0 h0 carbon r R) as [F1 F2]. destruct (forcing_run c' rf' t0 h0' carbon' r' R') as [F1' F2'].
  destruct (proj1 F1 E) as (tr & T1 & T2 & _). destruct (proj1 F1' E') as (tr' & T1' & T2' & _).
  destruct (F2 E tr T1 T2 o I) as (col & C1 & C2 & C3). destruct (F2' E' tr' T1' T2' o I) as (col' & C1' & C2' & C3').
  exists col, col'. split; [exact C1|]. split; [congruence|]. split; [exact C1'|]. split; [congruence|].
  intros m M. destruct (nth_error tr m) as [[v f]|] eqn:N1; [|apply nth_error_None in N1; lia].
  destruct (nth_error tr' m) as [[v' f']|] eqn:N2; [|apply nth_error_None in N2; lia].
  rewrite (C3 _ _ _ N1), (C3' _ _ _ N2).
  assert ((v, f) = (v', f')) as [= <- <-] by (eapply forced_prefix; [exact S | exact T2 | exact T2' | | exact N1 | exact N2]; lia).
  eapply same_cell; [exact S | exact M].
Qed.

(** ** reruns *)
Definition same_outputs (s s' : loop A T H) : Prop :=
  l_t s = l_t s' /\ l_h s = l_h s' /\ l_values s = l_values s' /\
  forall o, In o (output_names (t_names th)) -> dget (l_res s) o = dget (l_res s') o.
Lemma put_same k i v (r r' : results A) : (forall o, In o (output_names (t_names th)) -> dget r o = dget r' o) -> In k (output_names (t_names th)) ->
  match put k i v r, put k i v r' with
  | Ok x, Ok y => forall o, In o (output_names (t_names th)) -> dget x o = dget y o
  | Err e, Err e' => e = e'
  | _, _ => False
  end.
Proof.
  intros S I. unfold put. rewrite (S k I). destruct (dget r' k) as [[l|f]|]; try reflexivity.
  destruct (Nat.ltb i (List.length l)); [|reflexivity]. intros o IO. rewrite !dget_dset. destruct (String.eqb k o); [reflexivity | now apply S].
Qed.
Lemma put_outputs_same v i : forall ns : dict string, incl (dkeys ns) (output_names (t_names th)) -> forall x y : result (results A),
  match x, y with Ok r, Ok r' => forall o, In o (output_names (t_names th)) -> dget r o = dget r' o | Err e, Err e' => e = e' | _, _ => False end ->
  let step := fun (acc : result (results A)) kv => do r <- acc; do v0 <- key (snd kv) (dget v (snd kv)); put (fst kv) i v0 r in
  match fold_left step ns x, fold_left step ns y with
  | Ok r, Ok r' => forall o, In o (output_names (t_names th)) -> dget r o = dget r' o | Err e, Err e' => e = e' | _, _ => False end.
Proof.
  induction ns as [|[k nm] ns IH]; intros IN x y X step; cbn [fold_left]; [exact X|].
  apply IH; [intros a Ia; apply IN; now right|]. unfold step. cbn [fst snd].
  destruct x as [r|e], y as [r'|e']; try contradiction; cbn [rbind]; [|exact X].
  destruct (key nm (dget v nm)); cbn [rbind]; [|reflexivity]. apply put_same; [exact X | apply IN; now left].
Qed.
Lemma add_year_same c v f i (r r' : results A) : (forall o, In o (output_names (t_names th)) -> dget r o = dget r' o) ->
  match add_year T th c v f i r, add_year T th c v f i r' with
  | Ok x, Ok y => forall o, In o (output_names (t_names th)) -> dget x o = dget y o
  | Err e, Err e' => e = e'
  | _, _ => False
  end.
Proof.
  intros S. unfold add_year.
  pose proof (put_outputs_same v i (t_names th) (fun a Ia => in_or_app _ _ _ (or_introl Ia)) (Ok r) (Ok r') S) as P.
  cbv zeta in P. fold (put_outputs T th v i r) in P. fold (put_outputs T th v i r') in P.
  destruct (put_outputs T th v i r) as [r1|e], (put_outputs T th v i r') as [r1'|e']; try contradiction; cbn [rbind]; [|exact P].
  assert (forall o, In o FORC_OUTPUT_LIST -> In o (output_names (t_names th))) as IO by (intros o I; apply in_or_app; now right).
  pose proof (put_same "Total_forcing" i f r1 r1' P (IO "Total_forcing" ltac:(cbn; tauto))) as P2.
  destruct (put "Total_forcing" i f r1) as [r2|e], (put "Total_forcing" i f r1') as [r2'|e']; try contradiction; cbn [rbind]; [|exact P2].
  destruct (iloc (d_sun c) i) as [s|e]; cbn [rbind]; [|reflexivity].
  pose proof (put_same "Solar_forcing" i s r2 r2' P2 (IO "Solar_forcing" ltac:(cbn; tauto))) as P3.
  destruct (put "Solar_forcing" i s r2) as [r3|e], (put "Solar_forcing" i s r2') as [r3'|e']; try contradiction; cbn [rbind]; [|exact P3].
  destruct (iloc (d_vn c) i) as [vn|e]; cbn [rbind]; [|reflexivity].
  pose proof (put_same "Volcanic_forcing_NH" i (nmean vn) r3 r3' P3 (IO "Volcanic_forcing_NH" ltac:(cbn; tauto))) as P4.
  destruct (put "Volcanic_forcing_NH" i (nmean vn) r3) as [r4|e], (put "Volcanic_forcing_NH" i (nmean vn) r3') as [r4'|e']; try contradiction; cbn [rbind]; [|exact P4].
  destruct (iloc (d_vs c) i) as [vs|e]; cbn [rbind]; [|reflexivity].
  exact (put_same "Volcanic_forcing_SH" i (nmean vs) r4 r4' P4 (IO "Volcanic_forcing_SH" ltac:(cbn; tauto))).
Qed.
Lemma driver_year_same c s s' y : same_outputs s s' ->
  match driver_year T th c H emi2conc conc2forc fl s y, driver_year T th c H emi2conc conc2forc fl s' y with
  | Ok x, Ok z => same_outputs x z
  | Err e, Err e' => e = e'
  | _, _ => False
  end.
Proof.
  intros (E1 & E2 & E3 & E4). unfold driver_year. rewrite E1, E2, E3.
  match goal with |- context [rbind ?a _] => destruct a as [[h [[[fn fs] f] w]]|e] end; cbn [rbind]; [|reflexivity].
  destruct (iloc (d_vn c) _) as [vn|e]; cbn [rbind]; [|reflexivity].
  destruct (iloc (d_vs c) _) as [vs|e]; cbn [rbind]; [|reflexivity].
  destruct (t_year th (l_t s') _) as [[t' v]|e]; cbn [rbind fst snd]; [|reflexivity].
  pose proof (add_year_same c v f (Z.to_nat (y - d_start c)) _ _ E4) as P.
  destruct (add_year T th c v f (Z.to_nat (y - d_start c)) (l_res s)) as [x|e], (add_year T th c v f (Z.to_nat (y - d_start c)) (l_res s')) as [z|e'];
    try contradiction; cbn [rbind]; [|exact P]. unfold same_outputs. cbn. tauto.
Qed.
Lemma driver_years_same c ys : forall s s', same_outputs s s' ->
  same_outputs (fst (driver_years T th c H emi2conc conc2forc fl s ys)) (fst (driver_years T th c H emi2conc conc2forc fl s' ys)) /\
  snd (driver_years T th c H emi2conc conc2forc fl s ys) = snd (driver_years T th c H emi2conc conc2forc fl s' ys).
Proof.
  induction ys as [|y ys IH]; intros s s' S; cbn [driver_years]; [split; [exact S | reflexivity]|].
  pose proof (driver_year_same c s s' y S) as P.
  destruct (driver_year T th c H emi2conc conc2forc fl s y) as [x|e], (driver_year T th c H emi2conc conc2forc fl s' y) as [z|e']; try contradiction.
  - now apply IH.
  - split; [exact S | cbn; congruence].
Qed.
Lemma run_years_same c t0 h0 r r' : same_outputs (fst (YEARS c t0 h0 r)) (fst (YEARS c t0 h0 r')) /\ snd (YEARS c t0 h0 r) = snd (YEARS c t0 h0 r').
Proof.
  apply driver_years_same. unfold same_outputs. cbn. do 3 (split; [reflexivity|]). intros o I. rewrite !init_arrays_get.
  destruct (in_dec string_dec o (output_names (t_names th))); [reflexivity | contradiction].
Qed.
Lemma c53_forcing c rf t0 h0 h0' as_dict carbon carbon' r r' : d_rf c = Some rf ->
  (forall o, In o (output_names (t_names th)) ->
     dget (o_results (RUN c t0 h0 as_dict carbon r)) o = dget (o_results (RUN c t0 h0 as_dict carbon' r')) o) /\
  o_exn (RUN c t0 h0 true carbon r) = o_exn (RUN c t0 h0 true carbon' r') /\
  (forall k, ~ In k (output_names (t_names th)) -> dget (o_results (RUN c t0 h0' as_dict carbon r)) k = dget r k).
Proof.
  intros R. destruct (run_years_same c t0 h0 r r') as [[_ [_ [_ S]]] E].
  unfold RUN, run. fold (YEARS c). rewrite R. split; [|split].
  - destruct (YEARS c t0 h0 r) as [s e], (YEARS c t0 h0 r') as [s' e']. cbn [fst snd] in *. subst e'.
    destruct e; [exact S|]. destruct as_dict; [exact S|].
    destruct (write_data c (l_res s)), (write_data c (l_res s')). exact S.
  - destruct (YEARS c t0 h0 r) as [s e], (YEARS c t0 h0 r') as [s' e']. cbn [fst snd] in *. subst e'. destruct e; reflexivity.
  - intros k NI. destruct (YEARS c t0 h0' r) as [s e] eqn:Y. unfold YEARS, run_years in Y.
    pose proof (years_frame th c DO _ _ _ _ _ _ _ k Y NI) as F. cbn [l_res] in F. rewrite init_arrays_get in F.
    destruct (in_dec string_dec k (output_names (t_names th))); [contradiction|].
    destruct e; [exact F|]. destruct as_dict; [exact F|]. destruct (write_data c (l_res s)). exact F.
Qed.
End Runs.
End Facts.
