(** * P_Reader3: the scenario writer's unit lists (C73) *)
From Coq Require Import Ascii Reals Lra Lia.
From Verif Require Import PyBase PyBaseFacts Num M_Gas M_Input M_Names M_Distro M_Driver M_Reader Spec_Names Spec_Reader P_Names P_Distro2 P_Gas3 P_Reader.

Lemma insert1_length {B} (x : B) l : List.length (insert1 x l) = S (List.length l).
Proof. unfold insert1. destruct l; cbn; [reflexivity|]. destruct l; reflexivity. Qed.
Lemma insert1_nth {B} (x : B) l n : nth_error (insert1 x l) n =
  match l with
  | [] => match n with O => Some x | _ => None end
  | y :: r => match n with O => Some y | S O => Some x | S (S k) => nth_error r k end
  end.
Proof. destruct l as [|y r]; destruct n as [|[|n]]; try reflexivity. Qed.
Lemma insert1_map_in {B C} (f : B -> C) x l y : In y (insert1 x (map f l)) <-> y = x \/ exists b, In b l /\ f b = y.
Proof.
  unfold insert1. destruct l as [|a l]; cbn [map firstn skipn app In].
  - split; [intros [<-|[]]; auto|intros [->|[b [[] _]]]; auto].
  - rewrite in_map_iff. split.
    + intros [<-|[<-|[b [E I]]]]; [right; exists a; auto|auto|right; exists b; auto].
    + intros [->|[b [[->|I] E]]]; [auto|auto|right; right; exists b; auto].
Qed.
Lemma insert_beside {B} (fc fu : B -> string) lc lu l b : In b l -> NoDup (map fc l) -> fc b <> lc ->
  beside (insert1 lc (map fc l)) (insert1 lu (map fu l)) (fc b) (fu b).
Proof.
  intros I ND NE. destruct (In_nth_error _ _ I) as [n Hn]. 
  assert (U : forall m c, nth_error l m = Some c -> fc c = fc b -> m = n).
  { intros m c Hm Hc. assert (Lm : (m < List.length (map fc l))%nat) by (rewrite map_length; apply nth_error_Some; congruence).
    apply (proj1 (NoDup_nth_error _) ND m n Lm). rewrite !nth_error_map, Hm, Hn. cbn. congruence. }
  destruct l as [|a l]; [contradiction|]. destruct n as [|n].
  - exists 0%nat. cbn in Hn. inversion Hn; subst. split; [reflexivity|]. split; [intros m L; lia|reflexivity].
  - exists (S (S n)). rewrite !insert1_nth. cbn [map]. rewrite !nth_error_map. cbn [nth_error] in Hn. rewrite Hn. split; [reflexivity|]. split; [|reflexivity].
    intros m L. rewrite insert1_nth. cbn [map]. destruct m as [|[|m]].
    + intros E. inversion E as [E']. specialize (U 0%nat a eq_refl E'). discriminate.
    + intros E. inversion E. congruence.
    + rewrite nth_error_map. destruct (nth_error l m) as [c|] eqn:Em; [|discriminate]. cbn. intros E. inversion E as [E'].
      specialize (U (S m) c Em E'). lia.
Qed.

(** ** From a file *)
Lemma file_rows_kept rows l : file_rows rows = Ok l ->
  map (fun x => fst (fst x)) l = map (fun row => nth 0 row ""%string) (filter (fun row => negb (String.eqb (nth 1 row ""%string) "X")) rows) /\
  (forall c t cu, In (c, t, cu) l <-> exists row u, In row rows /\ kept_row row c u cu /\ t = row_unit c u) .
Proof.
  revert l. induction rows as [|row rows IH]; intros l H; cbn [file_rows] in H.
  - inversion H; subst. split; [reflexivity|]. intros c t cu. split; [intros []|intros [row [u [[] _]]]].
  - dbind H. unfold iloc in E. destruct (nth_error row 1) as [u|] eqn:N1; [|discriminate]. inversion E; subst v. clear E.
    cbn [filter]. rewrite (nth_error_nth _ _ ""%string N1). destruct (String.eqb_spec u "X").
    + subst. destruct (IH l H) as [P Q]. cbn [negb]. split; [exact P|]. intros c t cu. rewrite Q. split.
      * intros [r [w [I K]]]. exists r, w. split; [right; exact I|exact K].
      * intros [r [w [[->|I] [K T]]]]; [|exists r, w; auto]. exfalso. destruct K as [_ [K [_ X]]]. congruence.
    + dbind H. unfold iloc in E. destruct (nth_error row 0) as [c0|] eqn:N0; [|discriminate]. inversion E; subst v. clear E.
      dbind H. unfold iloc in E. destruct (nth_error row 2) as [cu0|] eqn:N2; [|discriminate]. inversion E; subst v. clear E.
      dbind H. inversion H; subst l. destruct (IH _ eq_refl) as [P Q]. cbn [negb map fst snd]. rewrite (nth_error_nth _ _ ""%string N0). split; [f_equal; exact P|].
      intros c t cu. cbn [In]. rewrite Q. split.
      * intros [E1|[r [w [I K]]]]; [|exists r, w; split; [right; exact I|exact K]].
        inversion E1; subst. exists row, u. split; [left; reflexivity|]. split; [|reflexivity]. unfold kept_row. auto.
      * intros [r [w [[->|I] [K T]]]]; [|right; exists r, w; auto]. left. destruct K as [K0 [K1 [K2 _]]].
        rewrite N0 in K0. rewrite N1 in K1. rewrite N2 in K2. inversion K0; inversion K1; inversion K2; subst. reflexivity.
Qed.
Lemma c73_file_lengths lines u : units_from_file lines = Ok u ->
  List.length (u_units u) = List.length (u_components u) /\ List.length (u_concunits u) = List.length (u_components u).
Proof.
  destruct lines as [|h rows]; [discriminate|]. cbn [units_from_file]. intros H. dbind H. inversion H; subst. unfold insert_landuse, of_rows. cbn [u_components u_units u_concunits].
  rewrite !insert1_length, !map_length. auto.
Qed.
(** components of a file appear once *)
Lemma rows_nodup rows l : file_rows rows = Ok l ->
  NoDup (map (fun row => nth 0 row ""%string) (filter (fun row => negb (String.eqb (nth 1 row ""%string) "X")) rows)) ->
  NoDup (map (fun x : string * string * string => fst (fst x)) l).
Proof. intros H. destruct (file_rows_kept _ _ H) as [-> _]. auto. Qed.

(** ** Unit texts *)
Lemma replace_char_fuel c : forall fuel s, (String.length s < fuel)%nat -> replace_fuel fuel (String c "") "" s = without_char c s.
Proof.
  induction fuel as [|fuel IH]; intros s L; [lia|]. cbn [replace_fuel]. destruct s as [|a r]; [reflexivity|]. cbn [without_char].
  cbn [String.length] in L. replace (String.prefix (String c "") (String a r)) with (Ascii.eqb a c).
  - destruct (Ascii.eqb a c).
    + cbn [String.length sdrop String.append]. apply IH. lia.
    + f_equal. apply IH. lia.
  - cbn [String.prefix]. destruct (Ascii.ascii_dec c a).
    + subst. rewrite Ascii.eqb_refl. destruct r; reflexivity.
    + destruct (Ascii.eqb_spec a c); [congruence|reflexivity].
Qed.
Lemma replace_char c s : replace (String c "") "" s = without_char c s.
Proof. unfold replace. apply replace_char_fuel. lia. Qed.
Lemma no_char c s : ~ occurs (String c "") s -> without_char c s = s.
Proof.
  intros H. rewrite <- replace_char. unfold replace. apply replace_absent. exact H.
Qed.
Lemma without_char_len c s : (String.length (without_char c s) <= String.length s)%nat.
Proof. induction s as [|a s IH]; cbn [without_char String.length]; [lia|]. destruct (Ascii.eqb a c); cbn [String.length]; lia. Qed.
Lemma no_char_inv c s : without_char c s = s -> ~ occurs (String c "") s.
Proof.
  intros E [a [b ->]]. revert E. induction a as [|x a IH]; cbn [String.append without_char].
  - rewrite Ascii.eqb_refl. intros E. pose proof (without_char_len c b) as L. rewrite E in L. cbn [String.length] in L. lia.
  - destruct (Ascii.eqb_spec x c).
    + intros E. pose proof (without_char_len c (String.append a (String c b))) as L. rewrite E in L. cbn [String.length] in L. lia.
    + intros E. inversion E as [E']. apply IH. exact E'.
Qed.
Lemma c73_unit_text c u t : unit_text c u t -> row_unit c u = t.
Proof.
  assert (W : forall d s, (d = "_"%char \/ d = "-"%char) -> replace (String d "") "" s = without_char d s) by (intros; apply replace_char).
  intros H. destruct H as [|c u NE O|c u NU NB|c u x NU B NB]; unfold row_unit.
  - reflexivity.
  - assert (E : (String.eqb c "N2O" && String.eqb u "Tg_N" = false)%bool).
    { destruct (String.eqb_spec c "N2O"); [|reflexivity]. destruct (String.eqb_spec u "Tg_N"); [|reflexivity]. exfalso; auto. }
    rewrite E. assert (K : contains "_" u = true) by (apply contains_occurs; exact O). rewrite K. rewrite replace_char. reflexivity.
  - pose proof (no_char_inv _ _ NU) as O. assert (K : contains "_" u = false) by (apply not_contains; exact O).
    assert (E : (String.eqb c "N2O" && String.eqb u "Tg_N" = false)%bool).
    { destruct (String.eqb_spec u "Tg_N"); [subst; discriminate|apply andb_false_r]. }
    rewrite E, K, replace_char. unfold replace. rewrite replace_absent; [rewrite sapp_assoc; reflexivity|]. intros [a [b G]]. exact (NB a b G).
  - pose proof (no_char_inv _ _ NU) as O. assert (K : contains "_" u = false) by (apply not_contains; exact O).
    assert (E : (String.eqb c "N2O" && String.eqb u "Tg_N" = false)%bool).
    { destruct (String.eqb_spec u "Tg_N"); [subst; discriminate|apply andb_false_r]. }
    rewrite E, K, replace_char, B. rewrite sapp_assoc. f_equal. f_equal. unfold replace. set (fuel := String.length ("BMB_AEROS_" ++ x)).
    change (replace_fuel (S fuel) "BMB_AEROS_" "" ("BMB_AEROS_" ++ x)) with
      (if String.prefix "BMB_AEROS_" ("BMB_AEROS_" ++ x) then ("" ++ replace_fuel fuel "BMB_AEROS_" "" (sdrop (String.length "BMB_AEROS_") ("BMB_AEROS_" ++ x)))%string
       else String "B" (replace_fuel fuel "BMB_AEROS_" "" ("MB_AEROS_" ++ x))).
    rewrite prefix_app, sdrop_app. cbn [String.append]. apply replace_absent. intros [a [b G]]. exact (NB a b G).
Qed.
Lemma c73_unit_text_total c u : (exists t, unit_text c u t) \/
  exists x a b, without_char "-"%char c = (a ++ "BMB_AEROS_" ++ b)%string /\ x = b /\ (a <> ""%string \/ exists a' b', b = (a' ++ "BMB_AEROS_" ++ b')%string).
Proof.
  destruct (contains "_" u) eqn:K.
  - apply contains_occurs in K. left. destruct (String.eqb_spec c "N2O") as [->|NC].
    + destruct (String.eqb_spec u "Tg_N") as [->|NU]; [eexists; apply text_n2o|eexists; apply text_named; [intros [_ G]; exact (NU G)|exact K]].
    + eexists; apply text_named; [intros [G _]; exact (NC G)|exact K].
  - apply not_contains in K. apply no_char in K. destruct (contains "BMB_AEROS_" (without_char "-"%char c)) eqn:B.
    + apply contains_occurs in B. destruct B as [a [b B]]. destruct (String.eqb_spec a "") as [->|NA].
      * destruct (contains "BMB_AEROS_" b) eqn:B2.
        -- apply contains_occurs in B2. right. exists b, ""%string, b. auto.
        -- apply not_contains in B2. left. eexists. apply (text_burning c u b K B). intros a' b' G. apply B2. exists a', b'. exact G.
      * right. exists b, a, b. auto.
    + apply not_contains in B. left. eexists. apply text_plain; [exact K|]. intros a b G. apply B. exists a, b. exact G.
Qed.

Lemma c73_file lines u row c eu cu : units_from_file lines = Ok u -> In row (tl lines) -> kept_row row c eu cu ->
  NoDup (map (fun row => nth 0 row ""%string) (filter (fun row => negb (String.eqb (nth 1 row ""%string) "X")) (tl lines))) -> c <> "CO2_lu" ->
  beside (u_components u) (u_units u) c (row_unit c eu) /\ beside (u_components u) (u_concunits u) c cu.
Proof.
  destruct lines as [|h rows]; [discriminate|]. cbn [units_from_file tl]. intros H I K ND NE. dbind H. inversion H; subst. unfold insert_landuse, of_rows.
  cbn [u_components u_units u_concunits]. destruct (file_rows_kept _ _ E) as [_ Q]. pose proof (rows_nodup _ _ E ND) as ND'.
  assert (J : In (c, row_unit c eu, cu) v) by (apply Q; exists row, eu; auto).
  split; [exact (insert_beside _ (fun x => snd (fst x)) _ _ _ _ J ND' NE)|exact (insert_beside _ snd _ _ _ _ J ND' NE)].
Qed.
Lemma c73_file_only lines u c : units_from_file lines = Ok u -> In c (u_components u) ->
  c = "CO2_lu" \/ exists row eu cu, In row (tl lines) /\ kept_row row c eu cu.
Proof.
  destruct lines as [|h rows]; [discriminate|]. cbn [units_from_file tl]. intros H I. dbind H. inversion H; subst. unfold insert_landuse, of_rows in I.
  cbn [u_components] in I. apply (insert1_map_in (fun x : string * string * string => fst (fst x))) in I.
  destruct I as [->|[[[c' t] cu] [J <-]]]; [auto|]. right. destruct (file_rows_kept _ _ E) as [_ Q]. apply Q in J. destruct J as [row [eu [J [K _]]]].
  exists row, eu, cu. auto.
Qed.
Lemma index_absent x l : ~ In x l -> index_of x l = Err ValueError.
Proof.
  induction l as [|y l IH]; intros H; cbn [index_of]; [reflexivity|]. destruct (String.eqb_spec y x); [exfalso; apply H; left; auto|].
  rewrite IH; [reflexivity|]. intros I; apply H; right; exact I.
Qed.
Lemma c73_skipped lines u l c : units_from_file lines = Ok u -> c <> "CO2_lu" ->
  (forall row eu cu, In row (tl lines) -> ~ kept_row row c eu cu) -> unit_at u l c = Err ValueError.
Proof.
  intros H NE K. unfold unit_at. rewrite index_absent; [reflexivity|]. intros I. destruct (c73_file_only _ _ _ H I) as [E|[row [eu [cu [J Q]]]]]; [contradiction|].
  exact (K row eu cu J Q).
Qed.
Lemma c73_landuse lines u : units_from_file lines = Ok u ->
  (forall row eu cu, In row (tl lines) -> ~ kept_row row "CO2_lu" eu cu) ->
  beside (u_components u) (u_units u) "CO2_lu" "PgC / yr" /\ beside (u_components u) (u_concunits u) "CO2_lu" "ppm".
Proof.
  destruct lines as [|h rows]; [discriminate|]. cbn [units_from_file tl]. intros H K. dbind H. inversion H; subst. unfold insert_landuse, of_rows.
  cbn [u_components u_units u_concunits]. destruct v as [|[[c t] cu] v].
  - split; exists 0%nat; (split; [reflexivity|]); (split; [intros m L; lia|reflexivity]).
  - assert (NE : c <> "CO2_lu").
    { intros ->. destruct (file_rows_kept _ _ E) as [_ Q]. destruct (proj1 (Q "CO2_lu" t cu) (or_introl eq_refl)) as [row [eu [I [J _]]]]. exact (K row eu cu I J). }
    split; exists 1%nat; (split; [reflexivity|]); (split; [|reflexivity]); intros [|m] L; try lia; cbn; congruence.
Qed.

(** ** From a frame *)
Lemma dget_map_entries {V} (f : V -> V) (d : dict V) k : dget (map (fun kv => (fst kv, f (snd kv))) d) k = option_map f (dget d k).
Proof. induction d as [|[k' v] d IH]; [reflexivity|]. cbn [map dget fst snd]. destruct (String.eqb k' k); [reflexivity|exact IH]. Qed.
Lemma map_dset_fst {V} (d : dict V) k v : dmem d k = true -> dkeys (dset d k v) = dkeys d.
Proof. intros H. rewrite dkeys_dset. rewrite H. reflexivity. Qed.
Lemma beside_map {V} (f : V -> string) lc lu (d : dict V) k v : wf d -> dget d k = Some v -> k <> lc ->
  beside (insert1 lc (dkeys d)) (insert1 lu (map (fun kv => f (snd kv)) d)) k (f v).
Proof.
  intros W D NE. apply dget_Some_In in D. exact (insert_beside (fun kv : string * V => fst kv) (fun kv => f (snd kv)) lc lu d (k, v) D W NE).
Qed.
Lemma pd_shape gas u : wf gas -> units_from_pd gas = Ok u -> exists d : dict (string * string),
  wf d /\ dkeys d = dkeys gas /\
  u = insert_landuse {| u_components := dkeys d; u_units := map (fun kv => (fst (snd kv) ++ " / yr")%string) d; u_concunits := map (fun kv => snd (snd kv)) d |} /\
  forall c eu cu, dget gas c = Some (eu, cu) ->
    dget d c = Some (if String.eqb c "BMB_AEROS_BC" then replace "Tg" "TgBC" (whole "Tg_N" "TgN2ON" eu)
                     else if String.eqb c "BMB_AEROS_OC" then replace "Tg" "TgOC" (whole "Tg_N" "TgN2ON" eu)
                     else whole "Tg_N" "TgN2ON" eu, whole "_" "" (whole "Tg_N" "TgN2ON" cu)).
Proof.
  intros W. unfold units_from_pd. cbv zeta. rewrite map_map. cbn [fst snd].
  set (g := map (fun x : string * (string * string) => (fst x, (whole "Tg_N" "TgN2ON" (fst (snd x)), whole "_" "" (whole "Tg_N" "TgN2ON" (snd (snd x)))))) gas).
  assert (Gk : dkeys g = dkeys gas) by (unfold g, dkeys; rewrite map_map; reflexivity).
  assert (Gw : wf g) by (unfold wf; fold (dkeys g); rewrite Gk; exact W).
  assert (Gd : forall c, dget g c = option_map (fun v : string * string => (whole "Tg_N" "TgN2ON" (fst v), whole "_" "" (whole "Tg_N" "TgN2ON" (snd v)))) (dget gas c))
    by (intros c; unfold g; rewrite <- dget_map_entries; reflexivity).
  destruct (dget g "BMB_AEROS_OC") as [oc|] eqn:OC; cbn [key rbind]; [|discriminate].
  destruct (dget (dset g "BMB_AEROS_OC" (replace "Tg" "TgOC" (fst oc), snd oc)) "BMB_AEROS_BC") as [bc|] eqn:BC; cbn [key rbind]; [|discriminate].
  intros H. inversion H; subst u. clear H. eexists. split; [|split; [|split; [reflexivity|]]].
  - apply wf_dset, wf_dset. exact Gw.
  - rewrite !map_dset_fst; [exact Gk|unfold dmem; rewrite OC; reflexivity|unfold dmem; rewrite BC; reflexivity].
  - intros c eu cu D. rewrite !dget_dset. rewrite Gd in OC. rewrite dget_dset, Gd in BC. rewrite Gd, D. cbn [option_map fst snd].
    destruct (String.eqb_spec c "BMB_AEROS_BC").
    + subst. change (String.eqb "BMB_AEROS_BC" "BMB_AEROS_BC") with true. change (String.eqb "BMB_AEROS_OC" "BMB_AEROS_BC") with false in BC. cbv iota in BC |- *.
      rewrite D in BC. inversion BC; subst. reflexivity.
    + destruct (String.eqb_spec c "BMB_AEROS_OC").
      * subst. rewrite D in OC. inversion OC; subst. reflexivity.
      * destruct (String.eqb_spec "BMB_AEROS_BC" c); [congruence|]. destruct (String.eqb_spec "BMB_AEROS_OC" c); [congruence|]. reflexivity.
Qed.
Lemma c73_frame gas u : wf gas -> units_from_pd gas = Ok u ->
  (List.length (u_units u) = List.length (u_components u) /\ List.length (u_concunits u) = List.length (u_components u)) /\
  (forall c, In c (u_components u) <-> c = "CO2_lu" \/ dmem gas c = true) /\
  (forall c eu cu, dget gas c = Some (eu, cu) -> c <> "CO2_lu" ->
     (cu <> "_" -> cu <> "Tg_N" -> beside (u_components u) (u_concunits u) c cu) /\
     (c <> "BMB_AEROS_BC" -> c <> "BMB_AEROS_OC" ->
        beside (u_components u) (u_units u) c ((if String.eqb eu "Tg_N" then "TgN2ON" else eu) ++ " / yr")) /\
     (eu = "Tg" -> (c = "BMB_AEROS_BC" -> beside (u_components u) (u_units u) c "TgBC / yr") /\
                   (c = "BMB_AEROS_OC" -> beside (u_components u) (u_units u) c "TgOC / yr"))).
Proof.
  intros W H. destruct (pd_shape gas u W H) as [d [Wd [Kd [-> D]]]]. unfold insert_landuse. cbn [u_components u_units u_concunits].
  split; [|split].
  - rewrite !insert1_length, !map_length. unfold dkeys. rewrite map_length. auto.
  - intros c. unfold dkeys. rewrite (insert1_map_in (fun kv : string * (string * string) => fst kv)). rewrite dget_In_keys, <- Kd. unfold dkeys. rewrite in_map_iff.
    split; (intros [E|[b [I E]]]; [auto|right; exists b; auto]).
  - intros c eu cu G NE. pose proof (D c eu cu G) as Dc.
    pose proof (beside_map snd "CO2_lu" "ppm" d c _ Wd Dc NE) as B1.
    pose proof (beside_map (fun v : string * string => (fst v ++ " / yr")%string) "CO2_lu" "PgC / yr" d c _ Wd Dc NE) as B2. cbn [fst snd] in B1, B2.
    unfold whole in B1, B2. split; [|split].
    + intros N1 N2. destruct (String.eqb_spec cu "Tg_N"); [contradiction|]. destruct (String.eqb_spec cu "_"); [contradiction|]. exact B1.
    + intros N1 N2. destruct (String.eqb_spec c "BMB_AEROS_BC"); [contradiction|]. destruct (String.eqb_spec c "BMB_AEROS_OC"); [contradiction|]. exact B2.
    + intros ->. split; intros ->; exact B2.
Qed.
Lemma c73_frame_needs gas : (exists u, units_from_pd gas = Ok u) <-> dmem gas "BMB_AEROS_OC" = true /\ dmem gas "BMB_AEROS_BC" = true.
Proof.
  unfold units_from_pd. cbv zeta. rewrite map_map. cbn [fst snd].
  set (g := map (fun x : string * (string * string) => (fst x, (whole "Tg_N" "TgN2ON" (fst (snd x)), whole "_" "" (whole "Tg_N" "TgN2ON" (snd (snd x)))))) gas).
  assert (Gd : forall c, dget g c = option_map (fun v : string * string => (whole "Tg_N" "TgN2ON" (fst v), whole "_" "" (whole "Tg_N" "TgN2ON" (snd v)))) (dget gas c))
    by (intros c; unfold g; rewrite <- dget_map_entries; reflexivity).
  unfold dmem. pose proof (Gd "BMB_AEROS_OC") as OC. pose proof (Gd "BMB_AEROS_BC") as BC.
  destruct (dget g "BMB_AEROS_OC") as [oc|]; cbn [key rbind].
  - rewrite dget_dset. change (String.eqb "BMB_AEROS_OC" "BMB_AEROS_BC") with false. cbv iota.
    destruct (dget gas "BMB_AEROS_OC"); [|discriminate]. destruct (dget g "BMB_AEROS_BC") as [bc|]; cbn [key rbind].
    + destruct (dget gas "BMB_AEROS_BC"); [|discriminate]. split; [auto|]. intros _. eexists; reflexivity.
    + destruct (dget gas "BMB_AEROS_BC"); [discriminate|]. split; [intros [u U]; discriminate|intros [_ X]; discriminate].
  - destruct (dget gas "BMB_AEROS_OC"); [discriminate|]. split; [intros [u U]; discriminate|intros [X _]; discriminate].
Qed.
(** the tropospheric ozone concentration cannot be read with the units of a file *)
Lemma c72_ozone_file {A} {N : Num A} nys nye (r : results A) lines u : units_from_file lines = Ok u ->
  (forall row eu cu, In row (tl lines) -> ~ kept_row row "TROP_O3" eu cu) ->
  forall q, get_variable_timeseries nys nye r "Atmospheric Concentrations|Ozone|Tropospheric'" u <> Ok q.
Proof.
  intros H K [[ys ts] unit] G.
  apply (c72_concentration nys nye r u _ "TROP_O3") in G; [|unfold concentration_variables; apply in_or_app; left; do 3 right; left; reflexivity].
  destruct G as [_ [_ B]]. apply unit_at_spec in B. rewrite (c73_skipped lines u _ "TROP_O3" H) in B; [discriminate|discriminate|exact K].
Qed.
