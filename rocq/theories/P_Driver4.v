(** * P_Driver4: feedback lag, final stage and result files *)
From Verif Require Import PyBase PyBaseFacts Num M_Gas M_TwoLayer M_UDM M_Forcing M_Driver Spec_Driver P_Forc P_Driver P_Driver2 P_Driver3.

Section Facts.
Context {A : Type} {N : Num A}.
Local Open Scope num_scope.

Lemma dupdate_fresh {V} (kvs : list (string * V)) : NoDup (map fst kvs) -> dupdate [] kvs = kvs.
Proof.
  assert (forall (kvs d : dict V), NoDup (map fst (d ++ kvs)) -> dupdate d kvs = d ++ kvs) as X.
  { clear kvs. induction kvs as [|[k v] kvs IH]; intros d ND; cbn; [now rewrite app_nil_r|].
    assert (dset d k v = d ++ [(k, v)]) as E.
    { assert (~ In k (dkeys d)) as NI.
      { rewrite map_app in ND. apply NoDup_remove_2 in ND. intros I. apply ND. apply in_or_app. now left. }
      clear - NI. induction d as [|[a b] d IHd]; cbn; [reflexivity|]. cbn in NI.
      destruct (String.eqb_spec a k) as [->|NE]; [tauto|]. rewrite IHd by tauto. reflexivity. }
    change (fold_left _ kvs ?d0) with (dupdate d0 kvs). rewrite E. replace (d ++ (k, v) :: kvs) with ((d ++ [(k, v)]) ++ kvs) by now rewrite <- app_assoc.
    apply IH. rewrite <- app_assoc. exact ND. }
  intros ND. now rewrite X.
Qed.

Section Runs.
Context {T : Type} (th : thermal A T).
Hypothesis DO : distinct_outputs (t_names th).
Context {H : Type} (emi2conc : H -> Z -> option (dict A) -> result H)
  (conc2forc : H -> Z -> A -> A -> result (H * (A * A * A * A)))
  (add_results : H -> bool -> dict (list A) -> result (dict (frame A)))
  (fl : option (list string)).

(** ** the log *)
Fixpoint expected (start : Z) (prev : option (dict A)) (n : nat) (tr : list (dict A * A)) {struct tr} : log A :=
  match tr with
  | [] => []
  | (v, _) :: r => ((start + Z.of_nat n)%Z, feedback_arg fl prev) :: expected start (Some v) (S n) r
  end.
Lemma steps_log c s n tr s' : d_rf c = None ->
  steps th c (logging emi2conc) (logging2 conc2forc) fl s n tr s' ->
  snd (l_h s') = snd (l_h s) ++ expected (d_start c) (l_values s) n tr.
Proof.
  intros R. induction 1 as [s n | s n s1 v f tr s2 D V AY X IH]; [now rewrite app_nil_r|].
  destruct (year_parts th c _ _ _ _ _ _ D) as (v' & f' & i & h & _ & V' & Hh & _ & _ & _ & Q). rewrite R in Q.
  destruct Q as (h1 & luc & sun & Q1 & _ & _ & Q2). rewrite IH. unfold logging in Q1.
  destruct (emi2conc (fst (l_h s)) _ _) as [h2|e]; [|discriminate]. injection Q1 as <-.
  unfold logging2 in Q2. cbn [fst snd] in Q2. destruct (conc2forc h2 _ luc sun) as [[h3 q]|e]; [|discriminate].
  injection Q2 as EH EQ. rewrite Hh, <- EH. cbn [snd]. cbn [expected]. rewrite V. rewrite <- app_assoc. reflexivity.
Qed.
Lemma expected_nth start prev n tr m : nth_error (expected start prev n tr) m =
  match nth_error tr m with
  | None => None
  | Some _ => Some ((start + Z.of_nat (n + m))%Z, feedback_arg fl
      match m with O => prev | S k => option_map fst (nth_error tr k) end)
  end.
Proof.
  revert prev n m. induction tr as [|[v f] tr IH]; intros prev n m; [destruct m; reflexivity|].
  destruct m as [|m]; cbn [expected nth_error]; [now rewrite Nat.add_0_r|]. rewrite IH.
  destruct (nth_error tr m); [|reflexivity]. replace (S n + m)%nat with (n + S m)%nat by lia. destruct m; reflexivity.
Qed.
Lemma expected_len start prev n tr : List.length (expected start prev n tr) = List.length tr.
Proof. revert prev n. induction tr as [|[v f] tr IH]; intros; cbn; [reflexivity | now rewrite IH]. Qed.
End Runs.

Section Lag.
Context {T : Type} (th : thermal A T).
Hypothesis DO : distinct_outputs (t_names th).
Context {H : Type} (emi2conc : H -> Z -> option (dict A) -> result H)
  (conc2forc : H -> Z -> A -> A -> result (H * (A * A * A * A))).

Lemma c52_lag c keys t0 h0 r s : d_rf c = None -> NoDup keys ->
  run_years T th c (H * log A) (logging emi2conc) (logging2 conc2forc) (Some keys) t0 (h0, []) r = (s, None) ->
  List.length (snd (l_h s)) = d_years c /\
  ((0 < d_years c)%nat -> nth_error (snd (l_h s)) 0 = Some (d_start c, None)) /\
  (forall n, (S n < d_years c)%nat -> exists fb,
     nth_error (snd (l_h s)) (S n) = Some ((d_start c + Z.of_nat (S n))%Z, Some fb) /\ dkeys fb = keys /\
     forall k o col, In k keys -> dget (t_names th) o = Some k -> dget (l_res s) o = Some (Arr col) -> dget fb k = nth_error col n).
Proof.
  intros R ND E. destruct (run_years_complete th c DO _ _ _ _ _ _ _ E) as (tr & X & L & C).
  apply (steps_log th emi2conc conc2forc) in X; [|exact R]. cbn [l_h snd l_values] in X. rewrite app_nil_l in X. rewrite X. rewrite expected_len. split; [exact L|].
  split.
  - intros P. rewrite expected_nth. destruct (nth_error tr 0) as [x|] eqn:N0; [|apply nth_error_None in N0; lia].
    cbn. now rewrite Z.add_0_r.
  - intros n LN. rewrite expected_nth. destruct (nth_error tr (S n)) as [x|] eqn:N0; [|apply nth_error_None in N0; lia].
    destruct (nth_error tr n) as [[v f]|] eqn:N1; [|apply nth_error_None in N1; lia]. cbn [option_map fst feedback_arg].
    rewrite dupdate_fresh by (rewrite map_map; cbn; now rewrite map_id).
    eexists. split; [reflexivity|]. split; [unfold dkeys; rewrite map_map; cbn; apply map_id|].
    intros k o col I Dn Dr.
    assert (In o (output_names (t_names th))) as IO.
    { apply in_or_app. left. apply dget_In_keys. apply dmem_true. eauto. }
    destruct (C o IO) as (col' & C1 & C2 & C3). rewrite C1 in Dr. injection Dr as <-.
    pose proof (C3 _ _ _ N1) as C4. unfold cell in C4. rewrite Dn in C4. rewrite C4.
    assert (exists x, nth_error col' n = Some x) as (y & Y).
    { destruct (nth_error col' n) eqn:Z; [eauto|]. apply nth_error_None in Z. lia. }
    rewrite C4 in Y. rewrite Y. clear - I Y. induction keys as [|a keys IH]; [destruct I|]. cbn.
    destruct (String.eqb_spec a k) as [->|NE]; [now rewrite Y|]. destruct I as [->|I]; [congruence|]. now apply IH.
Qed.
Lemma c52_temperature c t0 h0 r s : d_rf c = None -> dget (t_names th) "dT_glob" = Some "dtemp" ->
  run_years T th c (H * log A) (logging emi2conc) (logging2 conc2forc) (Some ["dtemp"]) t0 (h0, []) r = (s, None) ->
  exists col, dget (l_res s) "dT_glob" = Some (Arr col) /\ List.length col = d_years c /\ snd (l_h s) = lagged (d_start c) col.
Proof.
  intros R DN E. destruct (c52_lag c ["dtemp"] t0 h0 r s R ltac:(repeat constructor; cbn; tauto) E) as (L1 & L2 & L3).
  destruct (run_years_complete th c DO _ _ _ _ _ _ _ E) as (tr & _ & L & C).
  assert (In "dT_glob" (output_names (t_names th))) as IO.
  { apply in_or_app. left. apply dget_In_keys. apply dmem_true. eauto. }
  destruct (C _ IO) as (col & C1 & C2 & _). exists col. split; [exact C1|]. split; [congruence|].
  apply nth_error_eq. intros n. unfold lagged. rewrite nth_error_map.
  destruct (Nat.lt_ge_cases n (d_years c)) as [LN|GE].
  - assert (nth_error (seq 0 (List.length col)) n = Some n) as ->.
    { rewrite C2, L. rewrite nth_error_nth' with (d := 0%nat) by (rewrite seq_length; lia). rewrite seq_nth by lia. reflexivity. }
    cbn [option_map]. destruct n as [|n].
    + rewrite L2 by lia. cbn. now rewrite Z.add_0_r.
    + destruct (L3 n LN) as (fb & F1 & F2 & F3). rewrite F1. do 2 f_equal.
      pose proof (F3 "dtemp" "dT_glob" col ltac:(now left) DN C1) as F4.
      destruct fb as [|[k x] [|]]; try discriminate. cbn in F2. injection F2 as ->. cbn in F4.
      rewrite <- F4. reflexivity.
  - transitivity (@None (Z * option (dict A))); [apply nth_error_None; lia|].
    assert (nth_error (seq 0 (List.length col)) n = None) as -> by (apply nth_error_None; rewrite seq_length; lia). reflexivity.
Qed.

Lemma c78_zero c keys t0 h0 r s : d_rf c = None -> NoDup keys ->
  run_years T th c (H * log A) (logging emi2conc) (logging2 conc2forc) (Some keys) t0 (h0, []) r = (s, None) ->
  forall k, In k keys -> (forall t i t' v, t_year th t i = Ok (t', v) -> dget v k = None) ->
  forall n fb, nth_error (snd (l_h s)) (S n) = Some ((d_start c + Z.of_nat (S n))%Z, Some fb) -> dget fb k = Some #0.
Proof.
  intros R ND E k I Z n fb F. destruct (run_years_complete th c DO _ _ _ _ _ _ _ E) as (tr & X & L & _).
  assert (forall s n tr s', steps th c (logging emi2conc) (logging2 conc2forc) (Some keys) s n tr s' -> Forall (fun vf => dget (fst vf) k = None) tr) as FA.
  { clear - Z. intros s n tr s'. induction 1 as [s n | s n s1 v f tr s2 D V AY X IH]; constructor; [|exact IH].
    destruct (year_parts th c _ _ _ _ _ _ D) as (v' & f' & i & h & TY & V' & _). rewrite V in V'. injection V' as <-. cbn. exact (Z _ _ _ _ TY). }
  pose proof (FA _ _ _ _ X) as FT. apply (steps_log th emi2conc conc2forc) in X; [|exact R]. cbn [l_h snd l_values] in X. rewrite app_nil_l in X.
  rewrite X, expected_nth in F. destruct (nth_error tr (S n)); [|discriminate].
  destruct (nth_error tr n) as [[v f]|] eqn:N1; cbn [option_map fst feedback_arg] in F; [|discriminate].
  rewrite dupdate_fresh in F by (rewrite map_map; cbn; now rewrite map_id). injection F as <-.
  rewrite Forall_forall in FT. specialize (FT _ (nth_error_In _ _ N1)). cbn in FT. clear - I FT.
  induction keys as [|a keys IH]; [destruct I|]. cbn. destruct (String.eqb_spec a k) as [->|NE]; [now rewrite FT|].
  destruct I as [->|I]; [congruence | now apply IH].
Qed.

(** the log does not change the run *)
Definition erase (s : loop A T (H * log A)) : loop A T H :=
  {| l_t := l_t s; l_h := fst (l_h s); l_values := l_values s; l_res := l_res s |}.
Lemma erase_year c fl s y : driver_year T th c H emi2conc conc2forc fl (erase s) y =
  match driver_year T th c (H * log A) (logging emi2conc) (logging2 conc2forc) fl s y with Ok x => Ok (erase x) | Err e => Err e end.
Proof.
  unfold driver_year. cbn [erase l_t l_h l_values l_res]. destruct (d_rf c) as [rf|].
  - destruct (rf_forc_set c rf y) as [[[[fn fs] f] w]|e]; cbn [rbind]; [|reflexivity].
    destruct (iloc (d_vn c) _); cbn [rbind]; [|reflexivity]. destruct (iloc (d_vs c) _); cbn [rbind]; [|reflexivity].
    destruct (t_year th (l_t s) _) as [[t' v]|e]; cbn [rbind fst snd]; [|reflexivity].
    destruct (add_year T th c v f _ (l_res s)); reflexivity.
  - unfold logging. destruct (emi2conc (fst (l_h s)) y (feedback_arg fl (l_values s))) as [h1|e]; cbn [rbind]; [|reflexivity].
    destruct (iloc (d_luc c) _); cbn [rbind]; [|reflexivity]. destruct (iloc (d_sun c) _); cbn [rbind]; [|reflexivity].
    unfold logging2. cbn [fst snd]. destruct (conc2forc h1 y _ _) as [[h2 [[[f fn] fs] w]]|e]; cbn [rbind]; [|reflexivity].
    destruct (iloc (d_vn c) _); cbn [rbind]; [|reflexivity]. destruct (iloc (d_vs c) _); cbn [rbind]; [|reflexivity].
    destruct (t_year th (l_t s) _) as [[t' v]|e]; cbn [rbind fst snd]; [|reflexivity].
    destruct (add_year T th c v f _ (l_res s)); reflexivity.
Qed.
Lemma erase_years c fl ys : forall s, driver_years T th c H emi2conc conc2forc fl (erase s) ys =
  let '(x, e) := driver_years T th c (H * log A) (logging emi2conc) (logging2 conc2forc) fl s ys in (erase x, e).
Proof.
  induction ys as [|y ys IH]; intros s; cbn [driver_years]; [reflexivity|]. rewrite erase_year.
  destruct (driver_year T th c (H * log A) _ _ fl s y); [apply IH | reflexivity].
Qed.
Lemma c52_log_neutral c fl t0 h0 r : run_years T th c H emi2conc conc2forc fl t0 h0 r =
  let '(x, e) := run_years T th c (H * log A) (logging emi2conc) (logging2 conc2forc) fl t0 (h0, []) r in
  ({| l_t := l_t x; l_h := fst (l_h x); l_values := l_values x; l_res := l_res x |}, e).
Proof. unfold run_years. exact (erase_years c fl (year_list c) {| l_t := t0; l_h := (h0, []); l_values := None; l_res := init_arrays T th c r |}). Qed.
End Lag.

(** ** files *)
Lemma arr_of_ok (r : results A) k l : arr_of k r = Ok l <-> dget r k = Some (Arr l).
Proof. unfold arr_of. destruct (dget r k) as [[x|f]|]; split; intros E; congruence. Qed.
Lemma columns_ok (r : results A) ks : (exists cols, columns r ks = Ok cols /\ dkeys cols = ks) \/
  (exists k, In k ks /\ ~ has_array r k /\ columns r ks = Err (KeyError k)).
Proof.
  unfold columns. induction ks as [|k ks IH]; cbn [mapM]; [left; exists []; split; reflexivity|].
  destruct (arr_of k r) as [l|e] eqn:D; cbn [rbind].
  - destruct IH as [(cols & -> & K)|(k0 & I & NH & ->)].
    + left. exists ((k, l) :: cols). split; [reflexivity | cbn; now rewrite <- K].
    + right. exists k0. split; [now right | split; [exact NH | reflexivity]].
  - right. exists k. split; [now left|]. unfold arr_of in D. split.
    + intros (l & E). rewrite E in D. discriminate.
    + destruct (dget r k) as [[x|f]|]; [discriminate | injection D as <-; reflexivity | injection D as <-; reflexivity].
Qed.
Lemma columns_all (r : results A) ks cols k : columns r ks = Ok cols -> In k ks -> has_array r k.
Proof.
  unfold columns. revert cols. induction ks as [|a ks IH]; intros cols E I; [destruct I|]. cbn [mapM] in E.
  apply rbind_ok in E as (kl & E1 & E). apply rbind_ok in E as (rest & E2 & _). apply rbind_ok in E1 as (l & E1 & _).
  destruct I as [<-|I]; [apply arr_of_ok in E1; exists l; exact E1 | eapply IH; eassumption].
Qed.
Lemma c54_write (c : inst A) (r : results A) :
  (snd (write_data c r) = None <-> forall k, In k (file_columns (rf_run c)) -> has_array r k) /\
  (snd (write_data c r) = None -> map fst (fst (write_data c r)) = ["ohc"; "rib"; "temp"; "sunvolc"] ++ (if rf_run c then ["forc"] else []) /\
     flat_map (fun f => dkeys (snd f)) (fst (write_data c r)) = file_columns (rf_run c)) /\
  (forall e, snd (write_data c r) = Some e -> exists k, In k (file_columns (rf_run c)) /\ ~ has_array r k /\ e = KeyError k).
Proof.
  unfold write_data, file_columns, rf_run.
  destruct (columns_ok r ["OHC700"; "OHCTOT"]) as [(o & E1 & K1)|(k & I & NH & E1)]; rewrite E1; cbn [rbind].
  2: { cbn [fst snd]. split; [|split; [discriminate|]].
       - split; [discriminate|]. intros X. exfalso. apply NH, X. apply in_or_app. left. cbn in I |- *. tauto.
       - intros e [= <-]. exists k. split; [|tauto]. apply in_or_app. left. cbn in I |- *. tauto. }
  destruct (columns_ok r list_rib) as [(b & E2 & K2)|(k & I & NH & E2)]; rewrite E2; cbn [rbind].
  2: { cbn [fst snd]. split; [|split; [discriminate|]].
       - split; [discriminate|]. intros X. exfalso. apply NH, X. apply in_or_app. left. cbn in I |- *. tauto.
       - intros e [= <-]. exists k. split; [|tauto]. apply in_or_app. left. cbn in I |- *. tauto. }
  destruct (columns_ok r list_temp) as [(t & E3 & K3)|(k & I & NH & E3)]; rewrite E3; cbn [rbind].
  2: { assert (forall k, In k list_temp -> In k (file_columns (rf_run c))) as IT.
       { intros k0 I0. unfold file_columns. apply in_or_app. left. apply (in_or_app ["OHC700"; "OHCTOT"; "RIB_glob"; "RIB_N"; "RIB_S"]). right.
         apply (in_or_app list_temp). now left. }
       cbn [fst snd]. split; [|split; [discriminate|]].
       - split; [discriminate|]. intros X. exfalso. apply NH, X. exact (IT k I).
       - intros e [= <-]. exists k. split; [|tauto]. exact (IT k I). }
  assert (forall k, In k ["OHC700"; "OHCTOT"] \/ In k list_rib \/ In k list_temp -> has_array r k) as A0.
  { intros k [I|[I|I]]; [exact (columns_all _ _ _ _ E1 I) | exact (columns_all _ _ _ _ E2 I) | exact (columns_all _ _ _ _ E3 I)]. }
  destruct (columns_ok r ["Solar_forcing"; "Volcanic_forcing_NH"; "Volcanic_forcing_SH"]) as [(sv & E4 & K4)|(k & I & NH & E4)]; rewrite E4.
  2: { assert (forall k, In k ["Solar_forcing"; "Volcanic_forcing_NH"; "Volcanic_forcing_SH"] -> In k (file_columns (rf_run c))) as IT.
       { intros k0 I0. unfold file_columns. apply in_or_app. left. apply (in_or_app ["OHC700"; "OHCTOT"; "RIB_glob"; "RIB_N"; "RIB_S"]). right.
         apply (in_or_app list_temp). now right. }
       cbn [fst snd]. split; [|split; [discriminate|]].
       - split; [discriminate|]. intros X. exfalso. apply NH, X. exact (IT k I).
       - intros e [= <-]. exists k. split; [|tauto]. exact (IT k I). }
  pose proof (fun k I => columns_all _ _ _ k E4 I) as A1.
  assert (forall k extra, In k ((["OHC700"; "OHCTOT"; "RIB_glob"; "RIB_N"; "RIB_S"; "dT_glob"; "dT_NH"; "dT_SH"; "dT_glob_air"; "dT_NH_air";
     "dT_SH_air"; "dT_glob_sea"; "dT_NH_sea"; "dT_SHsea"; "Solar_forcing"; "Volcanic_forcing_NH"; "Volcanic_forcing_SH"]) ++ extra) ->
     (forall k, In k extra -> has_array r k) -> has_array r k) as A2.
  { intros k extra I X. apply in_app_or in I as [I|I]; [|now apply X].
    apply (in_app_or ["OHC700"; "OHCTOT"]) in I as [I|I]; [apply A0; tauto|].
    apply (in_app_or list_rib) in I as [I|I]; [apply A0; tauto|]. apply (in_app_or list_temp) in I as [I|I]; [apply A0; tauto | now apply A1]. }
  destruct (d_rf c) as [rf|].
  - destruct (columns_ok r ["Total_forcing"]) as [(tf & E5 & K5)|(k & I & NH & E5)]; rewrite E5.
    + pose proof (fun k I => columns_all _ _ _ k E5 I) as A3. cbn [fst snd]. split; [|split].
      * split; [|reflexivity]. intros _ k I. now apply (A2 k ["Total_forcing"]).
      * intros _. split; [reflexivity|]. cbn [app flat_map snd]. rewrite K1, K2, K3, K4, K5. reflexivity.
      * discriminate.
    + cbn [fst snd]. split; [|split; [discriminate|]].
      * split; [discriminate|]. intros X. exfalso. apply NH, X. apply in_or_app. now right.
      * intros e [= <-]. exists k. split; [apply in_or_app; now right | tauto].
  - cbn [fst snd]. split; [|split].
    + split; [|reflexivity]. intros _ k I. apply (A2 k []); [exact I | intros k0 []].
    + intros _. split; [reflexivity|]. cbn [app flat_map snd]. rewrite K1, K2, K3, K4. reflexivity.
    + discriminate.
Qed.

Section Final.
Context {T : Type} (th : thermal A T).
Hypothesis DO : distinct_outputs (t_names th).
Context {H : Type} (emi2conc : H -> Z -> option (dict A) -> result H)
  (conc2forc : H -> Z -> A -> A -> result (H * (A * A * A * A)))
  (add_results : H -> bool -> dict (list A) -> result (dict (frame A))).
Let RUN c fl := run T th c H emi2conc conc2forc add_results fl.
Let YEARS c fl := run_years T th c H emi2conc conc2forc fl.

Lemma series_temperature c fl t0 h0 r s : get_first_key (t_names th) "dtemp" = Ok "dT_glob" -> YEARS c fl t0 h0 r = (s, None) ->
  exists col, dget (l_res s) "dT_glob" = Some (Arr col) /\ feedback_series T th (Some ["dtemp"]) (l_res s) = Ok [("dtemp", col)].
Proof.
  intros G E. destruct (run_years_complete th c DO _ _ _ _ _ _ _ E) as (tr & _ & L & C).
  assert (In "dT_glob" (output_names (t_names th))) as IO.
  { apply in_or_app. left. unfold get_first_key in G.
    destruct (filter (fun kv => String.eqb (snd kv) "dtemp") (t_names th)) as [|[k v] l] eqn:F; [discriminate|]. injection G as ->.
    assert (In ("dT_glob", v) (t_names th)) as I.
    { assert (In ("dT_glob", v) (filter (fun kv => String.eqb (snd kv) "dtemp") (t_names th))) as I by (rewrite F; now left).
      apply filter_In in I. tauto. }
    now apply (in_map fst) in I. }
  destruct (C _ IO) as (col & C1 & _). exists col. split; [exact C1|].
  unfold feedback_series. cbn [mapM]. rewrite G. cbn [rbind]. unfold arr_of. rewrite C1. reflexivity.
Qed.
Lemma c52_same_year c t0 h0 carbon r s : d_rf c = None -> get_first_key (t_names th) "dtemp" = Ok "dT_glob" ->
  YEARS c (Some ["dtemp"]) t0 h0 r = (s, None) ->
  exists col, dget (l_res s) "dT_glob" = Some (Arr col) /\
  match add_results (l_h s) carbon [("dtemp", col)] with
  | Ok fs => let o := RUN c (Some ["dtemp"]) t0 h0 true carbon r in
             o_exn o = None /\ (wf fs -> forall k, dget (o_results o) k = match dget fs k with Some f => Some (Fr f) | None => dget (l_res s) k end)
  | Err e => o_exn (RUN c (Some ["dtemp"]) t0 h0 true carbon r) = Some e
  end.
Proof.
  intros R G E. destruct (series_temperature _ _ _ _ _ _ G E) as (col & C1 & C2). exists col. split; [exact C1|].
  unfold RUN, run. fold (YEARS c (Some ["dtemp"])). rewrite E, R, C2.
  destruct (add_results (l_h s) carbon [("dtemp", col)]) as [fs|e]; [|reflexivity]. cbn [o_exn o_results]. split; [reflexivity|].
  intros W k.
  assert (forall fs : dict (frame A), dget (map (fun kv => (fst kv, Fr (snd kv))) fs) k = match dget fs k with Some f => Some (Fr f) | None => None end) as M.
  { clear. induction fs as [|[a f] fs IH]; cbn; [reflexivity|]. destruct (String.eqb a k); [reflexivity | exact IH]. }
  rewrite dget_dupdate; [rewrite M; destruct (dget fs k); reflexivity|].
  unfold wf, dkeys in *. rewrite map_map. exact W.
Qed.

Lemma c53_stale c t0 h0 carbon r s fs col : d_rf c = None -> get_first_key (t_names th) "dtemp" = Ok "dT_glob" ->
  YEARS c (Some ["dtemp"]) t0 h0 r = (s, None) -> dget (l_res s) "dT_glob" = Some (Arr col) ->
  add_results (l_h s) carbon [("dtemp", col)] = Ok fs -> wf fs ->
  forall k, ~ In k (output_names (t_names th)) -> dget fs k = None ->
  dget (o_results (RUN c (Some ["dtemp"]) t0 h0 true carbon r)) k = dget r k.
Proof.
  intros R G E D F W k NI NF. destruct (c52_same_year c t0 h0 carbon r s R G E) as (col' & D' & X).
  rewrite D in D'. injection D' as <-. rewrite F in X. destruct X as [_ X]. rewrite (X W), NF.
  unfold YEARS, run_years in E. rewrite (years_frame th c DO _ _ _ _ _ _ _ k E NI). cbn [l_res]. rewrite init_arrays_get.
  destruct (in_dec string_dec k (output_names (t_names th))); [contradiction | reflexivity].
Qed.

(** ** unusable feedback lists *)
Lemma c78_none c t0 h0 as_dict carbon r s : d_rf c = None -> YEARS c None t0 h0 r = (s, None) ->
  RUN c None t0 h0 as_dict carbon r = {| o_results := l_res s; o_handler := l_h s; o_files := []; o_exn := Some TypeError |}.
Proof. intros R E. unfold RUN, run. fold (YEARS c None). rewrite E, R. reflexivity. Qed.
Lemma c78_unknown c keys key t0 h0 as_dict carbon r s : d_rf c = None -> YEARS c (Some keys) t0 h0 r = (s, None) ->
  In key keys -> (forall o, ~ In (o, key) (t_names th)) ->
  RUN c (Some keys) t0 h0 as_dict carbon r = {| o_results := l_res s; o_handler := l_h s; o_files := []; o_exn := Some IndexError |}.
Proof.
  intros R E I NI. unfold RUN, run. fold (YEARS c (Some keys)). rewrite E, R.
  assert (feedback_series T th (Some keys) (l_res s) = Err IndexError) as ->; [|reflexivity].
  destruct (run_years_complete th c DO _ _ _ _ _ _ _ E) as (tr & _ & L & C).
  unfold feedback_series.
  assert (mapM (fun k => do o <- get_first_key (t_names th) k; do l <- arr_of o (l_res s); Ok (k, l)) keys = Err IndexError) as ->; [|reflexivity].
  clear - I NI C. induction keys as [|a keys IH]; [destruct I|]. cbn [mapM].
  destruct (get_first_key (t_names th) a) as [o|e] eqn:G.
  - assert (In (o, a) (t_names th)) as IO.
    { unfold get_first_key in G. destruct (filter (fun kv => String.eqb (snd kv) a) (t_names th)) as [|[k v] l] eqn:F; [discriminate|].
      injection G as ->. assert (In (o, v) (filter (fun kv => String.eqb (snd kv) a) (t_names th))) as X by (rewrite F; now left).
      apply filter_In in X as [X1 X2]. cbn in X2. apply String.eqb_eq in X2. now subst v. }
    destruct (C o) as (col & C1 & _); [apply in_or_app; left; now apply (in_map fst) in IO|].
    cbn [rbind]. unfold arr_of at 1. rewrite C1. cbn [rbind]. rewrite IH; [reflexivity|].
    destruct I as [->|I]; [|exact I]. exfalso. exact (NI _ IO).
  - cbn [rbind]. unfold get_first_key in G. destruct (filter _ (t_names th)) as [|[k v] l]; [injection G as <-; reflexivity | discriminate].
Qed.
Lemma c78_known c keys t0 h0 carbon r s : d_rf c = None -> NoDup keys -> YEARS c (Some keys) t0 h0 r = (s, None) ->
  (forall k, In k keys -> exists o, In (o, k) (t_names th)) ->
  exists series, dkeys series = keys /\
    (forall k, In k keys -> exists o col, In (o, k) (t_names th) /\ dget (l_res s) o = Some (Arr col) /\ dget series k = Some col) /\
    o_exn (RUN c (Some keys) t0 h0 true carbon r) = match add_results (l_h s) carbon series with Ok _ => None | Err e => Some e end.
Proof.
  intros R ND E K. destruct (run_years_complete th c DO _ _ _ _ _ _ _ E) as (tr & _ & L & C).
  assert (exists series, mapM (fun k => do o <- get_first_key (t_names th) k; do l <- arr_of o (l_res s); Ok (k, l)) keys = Ok series /\
    dkeys series = keys /\ Forall (fun kv => exists o, In (o, fst kv) (t_names th) /\ dget (l_res s) o = Some (Arr (snd kv))) series) as (series & M & DK & FA).
  { clear - K C. induction keys as [|a keys IH]; [exists []; repeat split; constructor|].
    destruct IH as (series & M & DK & FA); [intros k I; apply K; now right|].
    destruct (K a (or_introl eq_refl)) as [o0 I0].
    assert (exists o, get_first_key (t_names th) a = Ok o /\ In (o, a) (t_names th)) as (o & G & IO).
    { unfold get_first_key. destruct (filter (fun kv => String.eqb (snd kv) a) (t_names th)) as [|[o v] l] eqn:F.
      - assert (In (o0, a) []) as []. rewrite <- F. apply filter_In. split; [exact I0 | apply String.eqb_refl].
      - exists o. split; [reflexivity|]. assert (In (o, v) (filter (fun kv => String.eqb (snd kv) a) (t_names th))) as X by (rewrite F; now left).
        apply filter_In in X as [X1 X2]. cbn in X2. apply String.eqb_eq in X2. now subst v. }
    destruct (C o) as (col & C1 & _); [apply in_or_app; left; now apply (in_map fst) in IO|].
    exists ((a, col) :: series). cbn [mapM]. rewrite G. cbn [rbind]. unfold arr_of at 1. rewrite C1. cbn [rbind]. rewrite M. cbn [rbind].
    split; [reflexivity|]. split; [cbn; now rewrite <- DK|]. constructor; [exists o; split; assumption | exact FA]. }
  exists series. split; [exact DK|]. split.
  - intros k I. rewrite <- DK in I. apply in_map_iff in I as ([k' col] & EK & I). cbn in EK. subst k'.
    rewrite Forall_forall in FA. destruct (FA _ I) as (o & IO & D). exists o, col. split; [exact IO|]. split; [exact D|].
    apply wf_In_dget; [|exact I]. unfold wf. now rewrite DK.
  - unfold RUN, run. fold (YEARS c (Some keys)). rewrite E, R. unfold feedback_series. rewrite M. cbn [rbind].
    rewrite dupdate_fresh by (fold (dkeys series); rewrite DK; exact ND).
    destruct (add_results (l_h s) carbon series); reflexivity.
Qed.
End Final.

Section Models.
Context {H : Type} (emi2conc : H -> Z -> option (dict A) -> result H)
  (conc2forc : H -> Z -> A -> A -> result (H * (A * A * A * A)))
  (add_results : H -> bool -> dict (list A) -> result (dict (frame A))) (fl : option (list string)).

Lemma c54_udm p c t0 h0 r s : run_years (ud_state A) (ud_thermal p) c H emi2conc conc2forc fl t0 h0 r = (s, None) ->
  snd (write_data c (l_res s)) = None.
Proof.
  intros E. apply (proj1 (c54_write c (l_res s))).
  destruct (run_years_complete (ud_thermal p) c ud_distinct _ _ _ _ _ _ _ E) as (tr & _ & _ & C).
  intros k I. destruct (C k) as (col & C1 & _); [|exists col; exact C1].
  apply smem_In. unfold file_columns, rf_run in I. destruct (d_rf c) as [rf|]; cbn [app] in I;
    repeat (destruct I as [<-|I]; [reflexivity|]); destruct I.
Qed.
Lemma c54_two_layer_write p c t0 h0 r s : dget r "RIB_N" = None ->
  run_years (tl_state A) (tl_thermal p) c H emi2conc conc2forc fl t0 h0 r = (s, None) ->
  write_data c (l_res s) = ([], Some (KeyError "RIB_N")).
Proof.
  intros D E. destruct (run_years_complete (tl_thermal p) c tl_distinct _ _ _ _ _ _ _ E) as (tr & _ & _ & C).
  assert (forall k, smem k (output_names tl_names) = true -> exists l, arr_of k (l_res s) = Ok l) as X.
  { intros k I. apply smem_In in I. destruct (C k I) as (col & C1 & _). exists col. now apply arr_of_ok. }
  assert (dget (l_res s) "RIB_N" = None) as NR.
  { unfold run_years in E. rewrite (years_frame (tl_thermal p) c tl_distinct _ _ _ _ _ _ _ "RIB_N" E).
    - cbn [l_res]. rewrite init_arrays_get. destruct (in_dec string_dec "RIB_N" (output_names (t_names (tl_thermal p)))) as [I|_]; [|exact D].
      exfalso. apply smem_In in I. discriminate.
    - intros I. apply smem_In in I. discriminate. }
  destruct (X "OHC700" eq_refl) as (l1 & E1). destruct (X "OHCTOT" eq_refl) as (l2 & E2). destruct (X "RIB_glob" eq_refl) as (l3 & E3).
  unfold write_data, columns, list_rib. cbn [mapM]. rewrite E1, E2, E3. cbn [rbind]. unfold arr_of at 1. rewrite NR. reflexivity.
Qed.
End Models.
Section Models2.
Context {H : Type} (emi2conc : H -> Z -> option (dict A) -> result H)
  (conc2forc : H -> Z -> A -> A -> result (H * (A * A * A * A)))
  (add_results : H -> bool -> dict (list A) -> result (dict (frame A))).
Lemma c54_two_layer p c t0 h0 carbon r s : dget r "RIB_N" = None ->
  run_years (tl_state A) (tl_thermal p) c H emi2conc conc2forc (Some ["dtemp"]) t0 h0 r = (s, None) ->
  let o := run (tl_state A) (tl_thermal p) c H emi2conc conc2forc add_results (Some ["dtemp"]) t0 h0 false carbon r in
  match d_rf c with
  | Some _ => o_exn o = Some (KeyError "RIB_N") /\ o_files o = []
  | None => exists col, dget (l_res s) "dT_glob" = Some (Arr col) /\
      let '(w, e) := write_output H add_results (l_h s) carbon [("dtemp", col)] in
      o_files o = w /\ o_exn o = match e with Some e => Some e | None => Some (KeyError "RIB_N") end
  end.
Proof.
  intros D E o.
  assert (write_data c (l_res s) = ([], Some (KeyError "RIB_N"))) as W.
  { clear o. exact (c54_two_layer_write emi2conc conc2forc (Some ["dtemp"]) p c t0 h0 r s D E). }
  subst o. unfold run. rewrite E. destruct (d_rf c) as [rf|] eqn:R.
  - rewrite W. split; reflexivity.
  - destruct (series_temperature (tl_thermal p) tl_distinct emi2conc conc2forc add_results c _ _ _ _ _ eq_refl E) as (col & C1 & C2).
    exists col. split; [exact C1|]. rewrite C2. destruct (write_output H add_results (l_h s) carbon [("dtemp", col)]) as [w [e|]].
    + split; reflexivity.
    + rewrite W. rewrite app_nil_r. split; reflexivity.
Qed.
End Models2.
End Facts.
