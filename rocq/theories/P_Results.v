(** * P_Results: columns of the result frames (C74) *)
From Coq Require Import Lia.
From Verif Require Import PyBase PyBaseFacts Num M_Gas M_Forcing M_Carbon M_CarbonBack M_Driver M_Results Spec_Reader Spec_Results P_Gas3.
From Verif Require P_Input2.

Lemma zlist_eqb_eq a b : zlist_eqb a b = true -> a = b.
Proof. unfold zlist_eqb. destruct (list_eq_dec Z.eq_dec a b); [auto|discriminate]. Qed.
Lemma firstn_app_exact {B} (a b : list B) : firstn (List.length a) (a ++ b) = a.
Proof. induction a; cbn; [destruct b; reflexivity|]. f_equal. assumption. Qed.
Lemma skipn_app_exact {B} (a b : list B) : skipn (List.length a) (a ++ b) = b.
Proof. induction a; cbn; [destruct b; reflexivity|]. assumption. Qed.
Lemma rotate_app {B} (a b : list B) n : n = Z.of_nat (List.length b) -> (0 < List.length b)%nat -> rotate n (a ++ b) = b ++ a.
Proof.
  intros -> L. unfold rotate, pyslice. cbv zeta. rewrite app_length.
  assert (S1 : slice_pos (Z.of_nat (List.length a + List.length b)) (- Z.of_nat (List.length b)) = List.length a).
  { unfold slice_pos. destruct (Z.ltb_spec (- Z.of_nat (List.length b)) 0); lia. }
  assert (S2 : slice_pos (Z.of_nat (List.length a + List.length b)) (Z.of_nat (List.length a + List.length b)) = (List.length a + List.length b)%nat).
  { unfold slice_pos. destruct (Z.ltb_spec (Z.of_nat (List.length a + List.length b)) 0); lia. }
  assert (S3 : slice_pos (Z.of_nat (List.length a + List.length b)) 0 = 0%nat) by (unfold slice_pos; cbn [Z.ltb Z.compare]; lia).
  rewrite S1, S2, S3, skipn_app_exact. cbn [skipn]. rewrite Nat.sub_0_r, firstn_app_exact. f_equal.
  apply firstn_all2. lia.
Qed.

Section Any.
Context {A : Type}.
Implicit Types f g : frame A.

Lemma filter_one {V} (d : dict V) c v : wf d -> dget d c = Some v -> filter (fun kv => String.eqb (fst kv) c) d = [(c, v)].
Proof.
  unfold wf, dkeys. induction d as [|[k x] d IH]; cbn [dget map fst]; [discriminate|]. intros W H. inversion W as [|? ? NI W']; subst. cbn [filter fst].
  destruct (String.eqb_spec k c).
  - inversion H; subst. f_equal. 
    clear -NI. induction d as [|[k y] d IH]; [reflexivity|]. cbn [filter fst map In] in *. destruct (String.eqb_spec k c); [exfalso; apply NI; auto|].
    apply IH. intros I; apply NI; auto.
  - apply IH; assumption.
Qed.
Lemma select_spec f cs g : wf (fr_cols f) -> select f cs = Ok g ->
  fr_index g = fr_index f /\ dkeys (fr_cols g) = cs /\ (forall c, In c cs -> dget (fr_cols g) c = dget (fr_cols f) c) /\
  (forall c, In c cs -> dmem (fr_cols f) c = true).
Proof.
  intros W. unfold select. intros H. dbind H. inversion H; subst. cbn [fr_index fr_cols]. split; [reflexivity|]. clear H. revert v E.
  induction cs as [|c cs IH]; cbn [mapM]; intros v E.
  - inversion E; subst. split; [reflexivity|]. split; intros c [].
  - unfold dmem at 1 in E. destruct (dget (fr_cols f) c) as [x|] eqn:D; [|discriminate]. cbn [rbind] in E. dbind E. inversion E; subst.
    destruct (IH _ eq_refl) as [K [G M]]. cbn [List.concat]. rewrite (filter_one _ _ _ W D). cbn [app dkeys map fst]. split; [f_equal; exact K|]. split.
    + intros c' I. cbn [dget]. destruct (String.eqb_spec c c'); [congruence|]. apply G. destruct I; [contradiction|assumption].
    + intros c' [<-|I]; [unfold dmem; rewrite D; reflexivity|apply M; exact I].
Qed.
Lemma dset_new {V} (d : dict V) k v : dmem d k = false -> dset d k v = d ++ [(k, v)].
Proof.
  induction d as [|[k' x] d IH]; [reflexivity|]. unfold dmem. cbn [dget dset]. destruct (String.eqb k' k); [discriminate|]. intros H. cbn [app]. f_equal. apply IH. exact H.
Qed.
Lemma set_col_new f c v g : set_col f c v = Ok g -> dmem (fr_cols f) c = false ->
  fr_index g = fr_index f /\ fr_cols g = fr_cols f ++ [(c, v)] /\ List.length v = List.length (fr_index f).
Proof.
  unfold set_col. destruct (Nat.eqb_spec (List.length v) (List.length (fr_index f))); [|discriminate]. intros H D. inversion H; subst. cbn [fr_index fr_cols].
  split; [reflexivity|]. split; [apply dset_new; exact D|assumption].
Qed.
Lemma dget_app {V} (a b : dict V) k : dget (a ++ b) k = match dget a k with Some v => Some v | None => dget b k end.
Proof. induction a as [|[k' x] a IH]; [reflexivity|]. cbn [app dget]. destruct (String.eqb k' k); [reflexivity|exact IH]. Qed.
Lemma filter_keep {V} (d : dict V) (P : string -> bool) : (forall k, In k (dkeys d) -> P k = true) -> filter (fun kv => P (fst kv)) d = d.
Proof. induction d as [|[k v] d IH]; intros H; [reflexivity|]. cbn [filter fst]. rewrite (H k) by (left; reflexivity). f_equal. apply IH. intros k' I. apply H. right; exact I. Qed.
Lemma dmem_not_in {V} (d : dict V) k : ~ In k (dkeys d) -> dmem d k = false.
Proof. intros H. destruct (dmem d k) eqn:E; [|reflexivity]. exfalso. apply H. apply dget_In_keys. exact E. Qed.
Lemma dkeys_app {V} (a b : dict V) : dkeys (a ++ b) = dkeys a ++ dkeys b.
Proof. unfold dkeys. apply map_app. Qed.
End Any.

Lemma year_column_values {A} {N : Num A} (p : hpam A) : year_column p = year_values (nystart p) (nyend p).
Proof. unfold year_column, years_of, zrange, year_values. rewrite map_map. reflexivity. Qed.
Section Frames.
Context {A : Type} {N : Num A}.

(** ** Forcing *)
Lemma forcing_spec (p : hpam A) st erf f cs last :
  NoDup (dkeys (s_forc st) ++ "Year" :: dkeys (fr_cols erf)) -> ~ In "TOT_vanilla" (dkeys (s_forc st) ++ dkeys (fr_cols erf)) ->
  dkeys (fr_cols erf) = cs ++ [last] -> forcing_frame p st erf = Ok f ->
  fr_index f = years_of p /\ fr_index erf = years_of p /\
  dkeys (fr_cols f) = forcing_columns (dkeys (s_forc st)) cs last /\
  (forall k v, dget (s_forc st) k = Some v -> List.length v = List.length (years_of p)) /\
  exists g, f = rename_col "SO2" "SO4_DIR" g /\ wf (fr_cols g) /\ dkeys (fr_cols g) = last :: dkeys (s_forc st) ++ "Year" :: cs /\
    dget (fr_cols g) "Year" = Some (year_values (nystart p) (nyend p)) /\
    (forall k, In k (dkeys (s_forc st)) -> dget (fr_cols g) k = dget (s_forc st) k) /\
    (forall k, In k (dkeys (fr_cols erf)) -> dget (fr_cols g) k = dget (fr_cols erf) k).
Proof.
  intros ND NT KE H. unfold forcing_frame in H. rewrite year_column_values in H. dbind H. unfold make_frame in E.
  destruct (forallb _ (s_forc st)) eqn:FB; [|discriminate]. inversion E; subst v. clear E.
  dbind H. apply set_col_new in E; [|cbn [fr_cols]; apply dmem_not_in; intros I; apply NoDup_remove_2 in ND; apply ND, in_or_app; left; exact I].
  cbn [fr_index fr_cols] in E. destruct E as [I1 [C1 _]].
  dbind H. unfold concat_cols in E. destruct (zlist_eqb (fr_index v) (fr_index (with_tot_vanilla erf))) eqn:Z; [|discriminate]. apply zlist_eqb_eq in Z.
  cbn [with_tot_vanilla fr_index] in Z. inversion E; subst v0. clear E.
  assert (NTE : dmem (fr_cols erf) "TOT_vanilla" = false) by (apply dmem_not_in; intros I; apply NT, in_or_app; right; exact I).
  unfold with_tot_vanilla in H. cbn [fr_cols fr_index] in H. rewrite (dset_new _ _ _ NTE), C1 in H.
  dbind H. unfold drop_cols in E. cbn [find fr_cols] in E.
  destruct (negb (dmem _ "TOT_vanilla")); [discriminate|]. inversion E; subst v0. clear E.
  rewrite !filter_app in H.
  assert (KF : forall d : dict (list A), ~ In "TOT_vanilla" (dkeys d) ->
    filter (fun kv : string * list A => negb ((fst kv =? "TOT_vanilla")%string || false)) d = d).
  { intros d NI. apply (filter_keep d (fun k => negb ((k =? "TOT_vanilla")%string || false))). intros k I.
    destruct (String.eqb_spec k "TOT_vanilla"); [subst; contradiction|reflexivity]. }
  rewrite (KF (s_forc st)) in H by (intros I; apply NT, in_or_app; left; exact I).
  rewrite (KF (fr_cols erf)) in H by (intros I; apply NT, in_or_app; right; exact I).
  rewrite (KF [("Year", year_values (nystart p) (nyend p))]) in H by (cbn; intros [I|[]]; discriminate I).
  match type of H with context [filter ?q [("TOT_vanilla", ?x)]] => change (filter q [("TOT_vanilla", x)]) with (@nil (string * list A)) in H end.
  rewrite app_nil_r in H. cbn [fr_cols fr_index] in H.
  assert (KS : dkeys ((s_forc st ++ [("Year", year_values (nystart p) (nyend p))]) ++ fr_cols erf) = (dkeys (s_forc st) ++ "Year" :: cs) ++ [last]).
  { rewrite !dkeys_app, KE. cbn [dkeys map fst]. rewrite <- !app_assoc. reflexivity. }
  rewrite KS in H. rewrite (rotate_app _ [last] 1 eq_refl) in H by (cbn; lia). cbn [app] in H.
  dbind H. inversion H; subst f. clear H.
  assert (W : wf ((s_forc st ++ [("Year", year_values (nystart p) (nyend p))]) ++ fr_cols erf)).
  { unfold wf. change (map fst ((s_forc st ++ [("Year", year_values (nystart p) (nyend p))]) ++ fr_cols erf)) with (dkeys ((s_forc st ++ [("Year", year_values (nystart p) (nyend p))]) ++ fr_cols erf)).
    rewrite !dkeys_app. cbn [dkeys map fst]. rewrite <- app_assoc. exact ND. }
  destruct (select_spec (Build_frame (fr_index v) _) _ _ W E) as [I2 [K2 [G2 M2]]]. cbn [fr_index fr_cols] in I2, G2, M2.
  assert (AllIn : forall k, In k (dkeys (s_forc st)) \/ k = "Year" \/ In k (dkeys (fr_cols erf)) -> In k (last :: dkeys (s_forc st) ++ "Year" :: cs)).
  { intros k Hk. rewrite KE in Hk. cbn [In]. rewrite !in_app_iff in *. cbn [In] in *. intuition. }
  split; [cbn [rename_col fr_index]; congruence|]. split; [congruence|]. split; [|split].
  - unfold forcing_columns. cbn [rename_col fr_cols]. unfold dkeys at 1. rewrite map_map. cbn [fst]. rewrite <- K2. unfold dkeys. rewrite map_map. reflexivity.
  - intros k x D. apply dget_Some_In in D. apply (proj1 (forallb_forall _ _) FB) in D. cbn [snd] in D. apply Nat.eqb_eq in D. exact D.
  - exists v0. split; [reflexivity|]. split.
    + unfold wf. change (map fst (fr_cols v0)) with (dkeys (fr_cols v0)). rewrite K2.
      assert (P : NoDup ((dkeys (s_forc st) ++ "Year" :: cs) ++ [last])).
      { rewrite KE in ND. rewrite <- app_assoc. exact ND. }
      apply NoDup_remove_1 in P as P1. apply NoDup_remove_2 in P. rewrite app_nil_r in *. constructor; assumption.
    + split; [exact K2|]. split; [|split].
      * rewrite G2 by (apply AllIn; auto). rewrite !dget_app. cbn [dget]. 
        assert (D : dget (s_forc st) "Year" = None).
        { apply dmem_false. apply dmem_not_in. intros I. apply NoDup_remove_2 in ND. apply ND, in_or_app. left; exact I. }
        rewrite D. reflexivity.
      * intros k I. rewrite G2 by (apply AllIn; auto). rewrite !dget_app. apply dget_In_keys, dmem_true in I. destruct I as [x ->]. reflexivity.
      * intros k I. rewrite G2 by (apply AllIn; auto). rewrite !dget_app.
        assert (D : dget (s_forc st) k = None).
        { apply dmem_false. apply dmem_not_in. intros J. apply in_split in J. destruct J as [l1 [l2 J]]. rewrite J, <- app_assoc in ND. cbn [app] in ND.
          apply NoDup_remove_2 in ND. apply ND. rewrite !in_app_iff. right. right. right. exact I. }
        rewrite D. cbn [dget]. destruct (String.eqb_spec "Year" k); [|reflexivity]. subst. exfalso. apply NoDup_remove_2 in ND. apply ND, in_or_app. right; exact I.
Qed.

(** ** Emissions *)
Lemma keep_combine {B C} (q : Z -> bool) (idx : list Z) (a : list B) (b : list C) : List.length a = List.length idx -> List.length b = List.length idx ->
  combine (map snd (filter (fun yv => q (fst yv)) (combine idx a))) (map snd (filter (fun yv => q (fst yv)) (combine idx b))) =
  map (fun t => (fst (snd t), snd (snd t))) (filter (fun t => q (fst t)) (combine idx (combine a b))).
Proof.
  revert a b. induction idx as [|i idx IH]; intros [|x a] [|y b]; try discriminate; intros La Lb; [reflexivity|]. cbn [combine filter fst].
  inversion La; inversion Lb. destruct (q i); cbn [map snd fst combine]; [f_equal|]; apply IH; assumption.
Qed.
Lemma yget_keep (q : Z -> bool) (idx : list Z) (b : list A) y : List.length b = List.length idx -> q y = true ->
  yget (combine (map snd (filter (fun yv => q (fst yv)) (combine idx idx))) (map snd (filter (fun yv => q (fst yv)) (combine idx b)))) y =
  yget (combine idx b) y.
Proof.
  revert b. induction idx as [|i idx IH]; intros [|x b]; try discriminate; intros L Q; [reflexivity|]. cbn [combine filter fst]. inversion L.
  destruct (q i) eqn:Qi; cbn [map snd fst combine yget].
  - destruct (i =? y)%Z; [reflexivity|]. apply IH; assumption.
  - destruct (Z.eqb_spec i y); [congruence|]. apply IH; assumption.
Qed.
Lemma dget_map {B C} (d : dict B) (h : B -> C) k : dget (map (fun kv => (fst kv, h (snd kv))) d) k = option_map h (dget d k).
Proof. induction d as [|[k' x] d IH]; [reflexivity|]. cbn [map fst snd dget]. destruct (String.eqb k' k); [reflexivity|exact IH]. Qed.
Lemma dkeys_map {B C} (d : dict B) (h : B -> C) : dkeys (map (fun kv => (fst kv, h (snd kv))) d) = dkeys d.
Proof. unfold dkeys. rewrite map_map. reflexivity. Qed.
Lemma dkeys_filter {B} (d : dict B) (q : string -> bool) : dkeys (filter (fun kv => q (fst kv)) d) = filter q (dkeys d).
Proof. unfold dkeys. induction d as [|[k v] d IH]; [reflexivity|]. cbn [filter map fst]. destruct (q k); cbn [map fst]; [f_equal|]; exact IH. Qed.
Lemma yget_mapM (h : Z -> result A) idx l y : mapM h idx = Ok l -> In y idx -> exists v, h y = Ok v /\ yget (combine idx l) y = Some v.
Proof.
  revert l. induction idx as [|i idx IH]; intros l H I; [destruct I|]. cbn [mapM] in H.
  destruct (h i) as [v|] eqn:E; cbn [rbind] in H; [|discriminate]. destruct (mapM h idx) as [vs|] eqn:E'; cbn [rbind] in H; [|discriminate].
  inversion H; subst. cbn [combine yget]. destruct (Z.eqb_spec i y) as [->|NE]; [eauto|]. destruct I; [contradiction|]. eauto.
Qed.
Lemma arange_in a b y : In y (arange a b) <-> (a <= y < b)%Z.
Proof.
  unfold arange. rewrite P_Input2.zrange_In. lia.
Qed.
Lemma zmem_in y l : zmem y l = true <-> In y l.
Proof.
  unfold zmem. rewrite existsb_exists. split; [intros [x [I E]]; apply Z.eqb_eq in E; subst; exact I|intros I; exists y; split; [exact I|apply Z.eqb_refl]].
Qed.
Lemma emission_spec (p : hpam A) emis f : wf (fr_cols emis) -> rectangular emis -> ~ In "Year" (dkeys (fr_cols emis)) -> ~ In "CO2" (dkeys (fr_cols emis)) ->
  emission_frame p emis = Ok f ->
  dkeys (fr_cols f) = emission_columns (dkeys (fr_cols emis)) /\
  List.length (fr_index f) = List.length (years_of p) /\ dget (fr_cols f) "Year" = Some (year_values (nystart p) (nyend p)) /\
  (exists last elast, zlast (years_of p) = Ok last /\ zlast (fr_index emis) = Ok elast /\
     forall y, In y (fr_index f) <-> In y (fr_index emis) /\ ~ (last < y <= elast)%Z) /\
  (forall y, In y (fr_index f) -> exists ff af, fr_get emis "CO2_FF" y = Ok ff /\ fr_get emis "CO2_AFOLU" y = Ok af /\ fr_get f "CO2" y = Ok (ff + af)%num) /\
  (forall y k, In y (fr_index f) -> In k (dkeys (fr_cols emis)) -> not_split k = true -> fr_get f k y = fr_get emis k y).
Proof.
  intros W R NY NC H. unfold emission_frame in H. rewrite year_column_values in H.
  destruct (drop_cols emis ["CO2_FF"; "CO2_AFOLU"]) as [f1|] eqn:E1; cbn [rbind] in H; [|discriminate].
  destruct (zlast (years_of p)) as [last|] eqn:E2; cbn [rbind] in H; [|discriminate].
  destruct (zlast (fr_index emis)) as [elast|] eqn:E3; cbn [rbind] in H; [|discriminate].
  destruct (drop_rows f1 _) as [f2|] eqn:E4; cbn [rbind] in H; [|discriminate].
  destruct (set_col f2 "Year" _) as [f3|] eqn:E5; cbn [rbind] in H; [|discriminate].
  destruct (mapM _ (fr_index f3)) as [co2|] eqn:E6; cbn [rbind] in H; [|discriminate].
  destruct (set_col f3 "CO2" co2) as [f4|] eqn:E7; cbn [rbind] in H; [|discriminate].
  set (others := filter not_split (dkeys (fr_cols emis))) in *.
  (* columns dropped *)
  assert (F1 : fr_index f1 = fr_index emis /\ fr_cols f1 = filter (fun kv => not_split (fst kv)) (fr_cols emis)).
  { unfold drop_cols in E1. destruct (find _ _); [discriminate|]. inversion E1; subst f1. cbn [fr_index fr_cols]. split; [reflexivity|].
    apply filter_ext. intros [k v]. unfold not_split. cbn [fst smem existsb]. rewrite orb_false_r. reflexivity. }
  destruct F1 as [I1 C1].
  (* rows dropped *)
  set (q := fun y => negb (zmem y (arange (last + 1) (elast + 1)))) in *.
  assert (F2 : fr_index f2 = map snd (filter (fun yv => q (fst yv)) (combine (fr_index emis) (fr_index emis))) /\
     fr_cols f2 = map (fun kv => (fst kv, map snd (filter (fun yv => q (fst yv)) (combine (fr_index emis) (snd kv))))) (fr_cols f1)).
  { unfold drop_rows in E4. destruct (forallb _ _); [|discriminate]. inversion E4; subst f2. cbn [fr_index fr_cols]. rewrite I1. split; reflexivity. }
  destruct F2 as [I2 C2].
  assert (K2 : dkeys (fr_cols f2) = others).
  { rewrite C2, (dkeys_map (fr_cols f1) (fun v => map snd (filter (fun yv => q (fst yv)) (combine (fr_index emis) v)))), C1, (dkeys_filter _ not_split). reflexivity. }
  assert (NO : forall k, ~ In k (dkeys (fr_cols emis)) -> ~ In k others) by (intros k NI I; apply NI; unfold others in I; apply filter_In in I; tauto).
  apply set_col_new in E5; [|apply dmem_not_in; rewrite K2; apply NO; exact NY]. destruct E5 as [I3 [C3 L3]].
  apply set_col_new in E7; [|apply dmem_not_in; rewrite C3, dkeys_app, K2; cbn [dkeys map fst]; rewrite in_app_iff; intros [I|[I|[]]]; [exact (NO _ NC I)|discriminate I]].
  destruct E7 as [I4 [C4 L4]].
  assert (K4 : dkeys (fr_cols f4) = others ++ ["Year"; "CO2"]) by (rewrite C4, C3, !dkeys_app, K2, <- app_assoc; reflexivity).
  rewrite K4 in H. rewrite (rotate_app others ["Year"; "CO2"] 2 eq_refl) in H by (cbn; lia). cbn [app] in H.
  assert (ND : NoDup others) by (apply NoDup_filter; exact W).
  assert (W4 : wf (fr_cols f4)).
  { unfold wf. change (map fst (fr_cols f4)) with (dkeys (fr_cols f4)). rewrite K4. 
    apply NoDup_Add with (a := "Year") (l := others ++ ["CO2"]).
    - apply (Add_app "Year" others ["CO2"]).
    - split.
      + apply NoDup_Add with (a := "CO2") (l := others); [|split; [exact ND|apply NO; exact NC]].
        rewrite <- (app_nil_r others) at 1. apply (Add_app "CO2" others []).
      + rewrite in_app_iff. intros [I|[I|[]]]; [exact (NO _ NY I)|discriminate I]. }
  destruct (select_spec f4 _ _ W4 H) as [I5 [K5 [G5 M5]]].
  assert (IX : forall y, In y (fr_index f) <-> In y (fr_index emis) /\ q y = true).
  { intros y. rewrite I5, I4, I3, I2. clear. induction (fr_index emis) as [|i l IH]; [cbn; tauto|]. cbn [combine filter fst].
    destruct (q i) eqn:Q; cbn [map snd In]; rewrite IH; intuition (subst; auto); congruence. }
  assert (GY : dget (fr_cols f) "Year" = Some (year_values (nystart p) (nyend p))).
  { rewrite G5 by (left; reflexivity). rewrite C4, C3, !dget_app. 
    replace (dget (fr_cols f2) "Year") with (@None (list A)); [reflexivity|]. symmetry. apply dmem_false, dmem_not_in. rewrite K2. apply NO; exact NY. }
  split; [exact K5|]. split.
  { rewrite I5, I4, I3. rewrite <- L3. rewrite <- year_column_values. unfold year_column. apply map_length. }
  split; [exact GY|]. split; [|split].
  - exists last, elast. split; [reflexivity|]. split; [reflexivity|]. intros y. rewrite IX. unfold q.
    destruct (zmem y (arange (last + 1) (elast + 1))) eqn:Z.
    + apply zmem_in, arange_in in Z. cbn [negb]. split; [intros [_ X]; discriminate X|intros [_ X]; exfalso; apply X; lia].
    + cbn [negb]. split; intros [I _]; (split; [exact I|]); [|reflexivity]. intros X.
      assert (Z' : zmem y (arange (last + 1) (elast + 1)) = true) by (apply zmem_in, arange_in; lia). congruence.
  - intros y I. rewrite I5, I4 in I. destruct (yget_mapM _ _ _ _ E6 I) as [v [V G]].
    destruct (fr_get emis "CO2_FF" y) as [ff|]; cbn [rbind] in V; [|discriminate].
    destruct (fr_get emis "CO2_AFOLU" y) as [af|]; cbn [rbind] in V; [|discriminate]. inversion V; subst v.
    exists ff, af. split; [reflexivity|]. split; [reflexivity|]. unfold fr_get, fr_col. rewrite G5 by (right; left; reflexivity).
    rewrite C4, dget_app. replace (dget (fr_cols f3) "CO2") with (@None (list A)).
    2:{ symmetry. apply dmem_false, dmem_not_in. rewrite C3, dkeys_app, K2. cbn [dkeys map fst]. rewrite in_app_iff. intros [X|[X|[]]]; [exact (NO _ NC X)|discriminate X]. }
    cbn [dget]. rewrite String.eqb_refl. cbn [key rbind]. rewrite I5, I4, G. reflexivity.
  - intros y k I IK NS. unfold fr_get, fr_col.
    assert (IO : In k others) by (unfold others; apply filter_In; auto).
    rewrite G5 by (right; right; exact IO). apply dget_In_keys, dmem_true in IK as D. destruct D as [v D]. rewrite D. cbn [key rbind].
    rewrite C4, C3, !dget_app, C2, (dget_map (fr_cols f1) (fun v => map snd (filter (fun yv => q (fst yv)) (combine (fr_index emis) v)))), C1, (dget_filter_key not_split (fr_cols emis)), NS, D.
    cbn [option_map key rbind]. rewrite I5, I4, I3, I2. rewrite (yget_keep q); [reflexivity|exact (R _ _ D)|apply IX; exact I].
Qed.

(** ** Concentrations *)
Variable nan : A.
Lemma concentration_spec (p : hpam A) st (pc : frame A) f : NoDup ("Year" :: dkeys (s_conc st) ++ dkeys (fr_cols pc)) -> ~ In "Year" (dkeys (s_gas st)) ->
  (exists k, In k (dkeys (fr_cols pc))) ->
  concentration_frame nan p st pc = Ok f ->
  fr_index f = years_of p /\ fr_index pc = years_of p /\ dkeys (fr_cols f) = concentration_columns (dkeys (s_gas st)) (dkeys (s_conc st) ++ dkeys (fr_cols pc)) /\
  dget (fr_cols f) "Year" = Some (year_values (nystart p) (nyend p)) /\
  (forall k d, In k (dkeys (s_gas st)) -> dget (s_conc st) k = Some d -> dget (fr_cols f) k = Some (conc_series nan (years_of p) d)) /\
  (forall k, In k (dkeys (s_gas st)) -> In k (dkeys (fr_cols pc)) -> dget (fr_cols f) k = dget (fr_cols pc) k).
Proof.
  intros ND NYG NE H. unfold concentration_frame in H. rewrite year_column_values in H.
  set (cc := map (fun kv => (fst kv, conc_series nan (years_of p) (snd kv))) (s_conc st)).
  change (map (fun kv : string * list (Z * A) => (fst kv, map (fun y : Z => match yget (snd kv) y with Some v => v | None => nan end) (years_of p))) (s_conc st)) with cc in H.
  assert (KC : dkeys cc = dkeys (s_conc st)) by apply (dkeys_map (s_conc st) (conc_series nan (years_of p))).
  inversion ND as [|? ? NY ND']; subst.
  rewrite dset_new in H by (apply dmem_not_in; rewrite KC; intros I; apply NY, in_or_app; left; exact I).
  destruct (make_frame (years_of p) _) as [f1|] eqn:E1; cbn [rbind] in H; [|discriminate]. unfold make_frame in E1. destruct (forallb _ _); [|discriminate].
  inversion E1; subst f1. clear E1.
  destruct (concat_cols _ pc) as [f2|] eqn:E2; cbn [rbind] in H; [|discriminate]. unfold concat_cols in E2. destruct (zlist_eqb _ _) eqn:Z; [|discriminate].
  apply zlist_eqb_eq in Z. cbn [fr_index] in Z. inversion E2; subst f2. clear E2. cbv zeta in H. cbn [fr_cols fr_index] in H.
  destruct (exists_last (l := dkeys (fr_cols pc))) as [cs [last KE]]; [destruct NE as [k I]; intros X; rewrite X in I; destruct I|].
  assert (KS : dkeys ((cc ++ [("Year", year_values (nystart p) (nyend p))]) ++ fr_cols pc) = (dkeys (s_conc st) ++ "Year" :: cs) ++ [last]).
  { rewrite !dkeys_app, KE, KC. cbn [dkeys map fst]. rewrite <- !app_assoc. reflexivity. }
  rewrite KS in H. rewrite (rotate_app _ [last] 1 eq_refl) in H by (cbn; lia). cbn [app] in H.
  destruct (select _ (last :: _)) as [f3|] eqn:E3; cbn [rbind] in H; [|discriminate].
  assert (PM : NoDup (dkeys (s_conc st) ++ "Year" :: dkeys (fr_cols pc))) by (apply NoDup_Add with (a := "Year") (l := dkeys (s_conc st) ++ dkeys (fr_cols pc)); [apply Add_app|split; assumption]).
  assert (W : wf ((cc ++ [("Year", year_values (nystart p) (nyend p))]) ++ fr_cols pc)).
  { unfold wf. change (map fst ((cc ++ [("Year", year_values (nystart p) (nyend p))]) ++ fr_cols pc)) with (dkeys ((cc ++ [("Year", year_values (nystart p) (nyend p))]) ++ fr_cols pc)).
    rewrite !dkeys_app, KC. cbn [dkeys map fst]. rewrite <- app_assoc. exact PM. }
  destruct (select_spec (Build_frame (years_of p) _) _ _ W E3) as [I3 [K3 [G3 _]]]. cbn [fr_index fr_cols] in I3, G3.
  set (cols := last :: dkeys (s_conc st) ++ "Year" :: cs) in *.
  assert (AllIn : forall k, In k (dkeys (s_conc st)) \/ k = "Year" \/ In k (dkeys (fr_cols pc)) -> In k cols).
  { intros k Hk. unfold cols. rewrite KE in Hk. cbn [In]. rewrite !in_app_iff in *. cbn [In] in *. intuition. }
  assert (FK : filter (fun k => smem k cols) (dkeys (s_gas st)) = filter (fun k => smem k (dkeys (s_conc st) ++ dkeys (fr_cols pc))) (dkeys (s_gas st)) \/ In "Year" (dkeys (s_gas st))).
  { destruct (in_dec string_dec "Year" (dkeys (s_gas st))) as [X|NX]; [right; exact X|left]. revert NX. generalize (dkeys (s_gas st)) as l.
    induction l as [|k l IH]; intros NX; [reflexivity|]. cbn [filter].
    assert (EQ : smem k cols = smem k (dkeys (s_conc st) ++ dkeys (fr_cols pc))).
    { apply Bool.eq_iff_eq_true. rewrite !smem_In. split.
      - unfold cols. rewrite KE. cbn [In]. rewrite !in_app_iff. cbn [In]. intros [X|[X|[X|X]]]; auto. exfalso. apply NX. left. congruence.
      - intros X. apply AllIn. apply in_app_iff in X. tauto. }
    rewrite EQ. rewrite IH by (intros X; apply NX; right; exact X). reflexivity. }
  destruct FK as [FK|FK]; [|contradiction].
  rewrite FK in H.
  assert (W3 : wf (fr_cols f3)).
  { unfold wf. change (map fst (fr_cols f3)) with (dkeys (fr_cols f3)). rewrite K3. unfold cols.
    rewrite KE in PM. change (NoDup (dkeys (s_conc st) ++ ("Year" :: cs) ++ [last])) in PM. rewrite app_assoc in PM.
    apply NoDup_remove_1 in PM as P1. apply NoDup_remove_2 in PM. rewrite app_nil_r in *. constructor; assumption. }
  destruct (select_spec f3 _ _ W3 H) as [I4 [K4 [G4 _]]].
  split; [congruence|]. split; [congruence|]. split; [exact K4|]. split; [|split].
  - rewrite G4 by (left; reflexivity). rewrite G3 by (apply AllIn; auto). rewrite !dget_app.
    replace (dget cc "Year") with (@None (list A)); [reflexivity|]. symmetry. apply dmem_false, dmem_not_in. rewrite KC. intros I. apply NY, in_or_app. left; exact I.
  - intros k d IG D. assert (I : In k (dkeys (s_conc st))) by (apply dget_In_keys, dmem_true; eauto).
    rewrite G4 by (right; apply filter_In; split; [exact IG|]; apply smem_In, in_or_app; left; exact I). rewrite G3 by (apply AllIn; auto). rewrite !dget_app.
    unfold cc. rewrite (dget_map (s_conc st) (conc_series nan (years_of p))), D. reflexivity.
  - intros k IG I. rewrite G4 by (right; apply filter_In; split; [exact IG|]; apply smem_In, in_or_app; right; exact I). rewrite G3 by (apply AllIn; auto). rewrite !dget_app.
    assert (D : dget cc k = None).
    { apply dmem_false, dmem_not_in. rewrite KC. intros J. apply in_split in J. destruct J as [l1 [l2 J]]. rewrite J, <- app_assoc in ND'. cbn [app] in ND'.
      apply NoDup_remove_2 in ND'. apply ND'. rewrite !in_app_iff. right. right. exact I. }
    rewrite D. cbn [dget]. destruct (String.eqb_spec "Year" k); [|reflexivity]. subst. exfalso. apply NY, in_or_app. right; exact I.
Qed.
End Frames.
