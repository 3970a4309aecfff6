(** * P_Reader2: sums of forcings and carbon outputs (C69-C71) *)
From Coq Require Import Reals Lra Lia.
From Verif Require Import PyBase PyBaseFacts Num M_Gas M_Input M_Names M_Distro M_Carbon M_Driver M_Reader Spec_Reader P_Gas3 P_Distro3 P_Reader.
Open Scope R_scope.

Lemma map2_length {A B C} (f : A -> B -> C) l m : List.length l = List.length m -> List.length (map2 f l m) = List.length l.
Proof. revert m. induction l as [|x l IH]; intros [|y m] H; cbn in *; try discriminate; [reflexivity|]. f_equal. apply IH. lia. Qed.
Lemma map2_nth_R (f : R -> R -> R) l m i : f 0 0 = 0 -> List.length l = List.length m -> nth i (map2 f l m) 0 = f (nth i l 0) (nth i m 0).
Proof.
  intros F. revert m i. induction l as [|x l IH]; intros [|y m] [|i] H; cbn in *; try discriminate; try (symmetry; exact F); [reflexivity|].
  apply IH. lia.
Qed.
Lemma nth_ext_R (l m : list R) : List.length l = List.length m -> (forall i, nth i l 0 = nth i m 0) -> l = m.
Proof. intros L H. apply (nth_ext l m 0 0 L). intros n _. apply H. Qed.
Lemma nth_zeros (ys : list R) i : nth i (map (fun _ : R => 0) ys) 0 = 0.
Proof. revert i. induction ys as [|y ys IH]; intros [|i]; cbn; try reflexivity. apply IH. Qed.

Section F.
Variable f : frame R.
Hypothesis Rect : rectangular f.

Lemma add_cols_err skip names e : fold_left (fun acc c => do t <- acc;
      if skip && negb (dmem (fr_cols f) c) then Ok t
      else do v <- fr_col f c; Ok (map2 nadd t v)) names (@Err (list R) e) = Err e.
Proof. induction names as [|c r IH]; [reflexivity|]. cbn [fold_left rbind]. exact IH. Qed.
Lemma add_cols_skip names ts : List.length ts = List.length (fr_index f) ->
  exists out, add_cols f true names ts = Ok out /\ List.length out = List.length (fr_index f) /\
    forall i, nth i out 0 = nth i ts 0 + row_sum f names i.
Proof.
  revert ts. induction names as [|c r IH]; intros ts L.
  - exists ts. split; [reflexivity|]. split; [exact L|]. intros i. cbn [row_sum]. lra.
  - unfold add_cols. cbn [fold_left rbind]. unfold dmem at 2. cbn [andb].
    destruct (dget (fr_cols f) c) as [v|] eqn:E.
    + cbn [negb]. unfold fr_col at 2, key. rewrite E. cbn [rbind].
      assert (L2 : List.length (map2 nadd ts v) = List.length (fr_index f)) by (rewrite map2_length; [exact L|rewrite L, (Rect c v E); reflexivity]).
      destruct (IH _ L2) as [out [H1 [H2 H3]]]. exists out. split; [exact H1|]. split; [exact H2|]. intros i. rewrite H3. cbn [row_sum]. unfold entry. rewrite E.
      rewrite map2_nth_R; [rnum; lra|rnum; lra|rewrite L, (Rect c v E); reflexivity].
    + cbn [negb]. destruct (IH _ L) as [out [H1 [H2 H3]]]. exists out. split; [exact H1|]. split; [exact H2|]. intros i. rewrite H3. cbn [row_sum]. unfold entry. rewrite E. lra.
Qed.
Lemma row_sum_app l m i : row_sum f (l ++ m) i = row_sum f l i + row_sum f m i.
Proof. induction l as [|x l IH]; cbn [app row_sum]; [lra|]. rewrite IH. lra. Qed.

Lemma year_col ys : fr_col f "Year" = Ok ys -> List.length (map (fun _ : R => 0) ys) = List.length (fr_index f).
Proof. intros H. apply fr_col_spec in H. rewrite map_length. exact (Rect _ _ H). Qed.
Lemma fgas_names : fgas_list = map fst published_fgases.
Proof. reflexivity. Qed.
Lemma montreal_names : montreal_list = map fst published_montreal.
Proof. reflexivity. Qed.

Lemma fc_fgas d a b ys : fr_col f "Year" = Ok ys ->
  exists ts, forc_common f "Fgas" d a b = Ok (ys, ts) /\ List.length ts = List.length (fr_index f) /\
    forall i, nth i ts 0 = row_sum f (map fst published_fgases) i.
Proof.
  intros Y. destruct (add_cols_skip fgas_list _ (year_col _ Y)) as [out [H1 [H2 H3]]].
  exists out. split; [|split; [exact H2|]].
  - unfold forc_common. rewrite Y. cbn [rbind]. change (smem "Fgas" forc_sums) with false. change (smem "Fgas" ["Fgas"; "GHG"]) with true.
    change (String.eqb "Fgas" "GHG") with false. cbv iota zeta. change (map (fun _ : R => nofZ 0) ys) with (map (fun _ : R => 0) ys). rewrite H1. reflexivity.
  - intros i. rewrite H3, nth_zeros, fgas_names. lra.
Qed.
Lemma fc_ghg d a b ys : fr_col f "Year" = Ok ys ->
  exists ts, forc_common f "GHG" d a b = Ok (ys, ts) /\ List.length ts = List.length (fr_index f) /\
    forall i, nth i ts 0 = row_sum f (map fst published_fgases) i + row_sum f (map fst published_montreal ++ six_others) i.
Proof.
  intros Y. destruct (add_cols_skip fgas_list _ (year_col _ Y)) as [o1 [H1 [H2 H3]]].
  destruct (add_cols_skip montreal_list _ H2) as [o2 [K1 [K2 K3]]]. destruct (add_cols_skip ghg_not_fgas _ K2) as [o3 [J1 [J2 J3]]].
  exists o3. split; [|split; [exact J2|]].
  - unfold forc_common. rewrite Y. cbn [rbind]. change (smem "GHG" forc_sums) with false. change (smem "GHG" ["Fgas"; "GHG"]) with true.
    change (String.eqb "GHG" "GHG") with true. cbv iota zeta. change (map (fun _ : R => nofZ 0) ys) with (map (fun _ : R => 0) ys). rewrite H1. cbn [rbind]. rewrite K1. cbn [rbind]. rewrite J1. reflexivity.
  - intros i. rewrite J3, K3, H3, nth_zeros, fgas_names, montreal_names, row_sum_app. change ghg_not_fgas with six_others. lra.
Qed.

(** columns whose absence is a KeyError *)
Lemma add_one c ts : List.length ts = List.length (fr_index f) -> (forall i, nth i ts 0 = 0) ->
  add_cols f false [c] ts = do v <- fr_col f c; Ok v.
Proof.
  intros L Z. unfold add_cols. cbn [fold_left rbind andb]. destruct (fr_col f c) as [v|] eqn:E; [|reflexivity]. cbn [rbind]. f_equal.
  apply fr_col_spec in E. pose proof (Rect _ _ E) as Lv. apply nth_ext_R; [rewrite map2_length; congruence|].
  intros i. rewrite map2_nth_R; [rnum; rewrite Z; lra|rnum; lra|congruence].
Qed.
Lemma fc_aerosols s a b : In s forc_sums ->
  forc_common f s variable_dict a b = do ys <- fr_col f "Year"; do v <- fr_col f "SO4_DIR"; Ok (ys, v).
Proof.
  intros I. unfold forc_common. destruct (fr_col f "Year") as [ys|] eqn:Y; [|reflexivity]. cbn [rbind]. cbv zeta.
  rewrite (proj2 (smem_In _ _) I).
  replace (map snd (filter (fun cv : string * string => contains s (fst cv) && negb (smem (snd cv) forc_sums)) variable_dict)) with ["SO4_DIR"]
    by (destruct I as [<-|[<-|[]]]; vm_compute; reflexivity).
  change (map (fun _ : R => nofZ 0) ys) with (map (fun _ : R => 0) ys).
  rewrite (add_one "SO4_DIR" _ (year_col _ Y)); [|intros i; apply nth_zeros]. destruct (fr_col f "SO4_DIR"); reflexivity.
Qed.
(** before any reader exists the dictionary lacks the one matching name *)
Lemma fc_aerosols_before s a b ys : In s forc_sums -> fr_col f "Year" = Ok ys ->
  forc_common f s openscm_to_cscm_dict a b = Ok (ys, map (fun _ => 0) ys).
Proof.
  intros I Y. unfold forc_common. rewrite Y. cbn [rbind]. cbv zeta. rewrite (proj2 (smem_In _ _) I).
  replace (map snd (filter (fun cv : string * string => contains s (fst cv) && negb (smem (snd cv) forc_sums)) openscm_to_cscm_dict)) with (@nil string)
    by (destruct I as [<-|[<-|[]]]; vm_compute; reflexivity).
  reflexivity.
Qed.
End F.

(** ** The variables *)
Lemma aerosol_table v : In v aerosol_variables -> is_forc v = true /\ exists s, dget variable_dict v = Some s /\ In s forc_sums.
Proof.
  intros [<-|[<-|[]]]; (split; [vm_compute; reflexivity|]).
  - exists "Aerosols". split; [vm_compute; reflexivity|left; reflexivity].
  - exists "Aerosols|Direct Effect". split; [vm_compute; reflexivity|right; left; reflexivity].
Qed.
Lemma sums_not_total s : In s forc_sums -> String.eqb s "Total_forcing+sunvolc" = false.
Proof. intros [<-|[<-|[]]]; reflexivity. Qed.

Lemma c69 nys nye (r : results R) u v f ys ts unit : In v aerosol_variables -> dget r "forcing" = Some (Fr f) -> rectangular f ->
  get_variable_timeseries nys nye r v u = Ok (ys, ts, unit) <->
  in_frame r "forcing" "Year" ys /\ in_frame r "forcing" "SO4_DIR" ts /\ unit = "W/m^2".
Proof.
  intros I F Rect. destruct (aerosol_table _ I) as [P [s [D S]]]. rewrite (get_forc _ _ _ _ _ _ _ _ _ P D). unfold from_forc.
  rewrite (proj2 (frame_at_spec _ _ _) F). cbn [rbind]. rewrite (sums_not_total _ S), (fc_aerosols f Rect s _ _ S). rewrite <- and_assoc.
  rewrite <- (frame_cols r "forcing" "Year" "SO4_DIR" ys ts). split; intros [H ->]; (split; [|reflexivity]).
  - dbind H. dbind H. inversion H; subst. exists f. rewrite frame_at_spec. auto.
  - destruct H as [g [G [X Y]]]. apply frame_at_spec in G. rewrite F in G. inversion G; subst. rewrite X. cbn [rbind]. rewrite Y. reflexivity.
Qed.
Lemma c70_fgas nys nye (r : results R) u f ys : dget r "forcing" = Some (Fr f) -> rectangular f -> dget (fr_cols f) "Year" = Some ys ->
  exists ts, get_variable_timeseries nys nye r fgas_variable u = Ok (ys, ts, "W/m^2") /\ List.length ts = List.length ys /\
    forall i, nth i ts 0 = row_sum f (map fst published_fgases) i.
Proof.
  intros F Rect Y. pose proof (Rect _ _ Y) as L. apply fr_col_spec in Y. destruct (fc_fgas f Rect variable_dict (Scalar 0) (Scalar 0) ys Y) as [ts [H1 [H2 H3]]].
  exists ts. split; [|split; [congruence|exact H3]]. apply (get_forc nys nye r u fgas_variable "Fgas"); [vm_compute; reflexivity|vm_compute; reflexivity|].
  split; [|reflexivity]. unfold from_forc. rewrite (proj2 (frame_at_spec _ _ _) F). cbn [rbind]. change (String.eqb "Fgas" "Total_forcing+sunvolc") with false. exact H1.
Qed.
Lemma c70_ghg nys nye (r : results R) u f ys : dget r "forcing" = Some (Fr f) -> rectangular f -> dget (fr_cols f) "Year" = Some ys ->
  exists ts, get_variable_timeseries nys nye r ghg_variable u = Ok (ys, ts, "W/m^2") /\ List.length ts = List.length ys /\
    forall i, nth i ts 0 = row_sum f (map fst published_fgases) i + row_sum f (map fst published_montreal ++ six_others) i.
Proof.
  intros F Rect Y. pose proof (Rect _ _ Y) as L. apply fr_col_spec in Y. destruct (fc_ghg f Rect variable_dict (Scalar 0) (Scalar 0) ys Y) as [ts [H1 [H2 H3]]].
  exists ts. split; [|split; [congruence|exact H3]]. apply (get_forc nys nye r u ghg_variable "GHG"); [vm_compute; reflexivity|vm_compute; reflexivity|].
  split; [|reflexivity]. unfold from_forc. rewrite (proj2 (frame_at_spec _ _ _) F). cbn [rbind]. change (String.eqb "GHG" "Total_forcing+sunvolc") with false. exact H1.
Qed.

(** total forcing *)
Lemma window_length {A} {N : Num A} a b : List.length (window (A := A) a b) = Z.to_nat (b - a + 1).
Proof. unfold window. rewrite map_length, seq_length. reflexivity. Qed.
Lemma c82_total nys nye (r : results R) u ys ts unit :
  get_variable_timeseries nys nye r ERF u = Ok (ys, ts, unit) <->
  unit = "W/m^2" /\ in_frame r "forcing" "Year" ys /\ exists tot vn vs s,
    in_frame r "forcing" "Total_forcing" tot /\ in_array r "Volcanic_forcing_NH" vn /\ in_array r "Volcanic_forcing_SH" vs /\
    in_array r "Solar_forcing" s /\
    List.length tot = Z.to_nat (nye - nys + 1) /\ List.length vn = Z.to_nat (nye - nys + 1) /\ List.length vs = Z.to_nat (nye - nys + 1) /\
    List.length s = Z.to_nat (nye - nys + 1) /\ List.length ts = Z.to_nat (nye - nys + 1) /\
    forall i, nth i ts 0 = nth i tot 0 + (nth i vn 0 + nth i vs 0) / 2 + nth i s 0.
Proof.
  assert (P : is_forc ERF = true) by (vm_compute; reflexivity).
  assert (D : dget variable_dict ERF = Some "Total_forcing+sunvolc") by (vm_compute; reflexivity).
  rewrite (get_forc _ _ _ _ _ _ _ _ _ P D). unfold from_forc. change (String.eqb "Total_forcing+sunvolc" "Total_forcing+sunvolc") with true. cbv iota.
  unfold volc_forcing, sun_forcing, on_indices. rewrite indices_window, window_length. unfold forc_common.
  change (smem "Total_forcing+sunvolc" forc_sums) with false. change (smem "Total_forcing+sunvolc" ["Fgas"; "GHG"]) with false.
  change (String.eqb "Total_forcing+sunvolc" "Total_forcing+sunvolc") with true. cbv iota zeta. unfold plus. set (n := Z.to_nat (nye - nys + 1)). split.
  - intros [H ->]. split; [reflexivity|].
    destruct (frame_at r "forcing") as [f|] eqn:F; [|discriminate]. cbn [rbind] in H. apply frame_at_spec in F.
    destruct (array_at r "Volcanic_forcing_NH") as [vn|] eqn:VN; [|discriminate]. cbn [rbind] in H. apply array_at_spec in VN.
    destruct (array_at r "Volcanic_forcing_SH") as [vs|] eqn:VS; [|discriminate]. cbn [rbind] in H. apply array_at_spec in VS.
    destruct (Nat.eqb_spec (List.length vn) (List.length vs)) as [L12|]; [|discriminate].
    rewrite (map2_length _ _ _ L12) in H. destruct (Nat.eqb_spec (List.length vn) n) as [L|]; [|discriminate]. cbn [rbind] in H.
    destruct (array_at r "Solar_forcing") as [sun|] eqn:S; [|discriminate]. cbn [rbind] in H. apply array_at_spec in S.
    destruct (Nat.eqb_spec (List.length sun) n) as [L3|]; [|discriminate]. cbn [rbind] in H.
    destruct (fr_col f "Year") as [y|] eqn:Y; [|discriminate]. cbn [rbind] in H. apply fr_col_spec in Y.
    destruct (fr_col f "Total_forcing") as [tot|] eqn:T; [|discriminate]. cbn [rbind] in H. apply fr_col_spec in T.
    rewrite (map2_length _ _ _ L12) in H. destruct (Nat.eqb_spec (List.length vn) (List.length tot)) as [L4|]; [|discriminate]. cbn [rbind] in H.
    assert (L5 : List.length tot = List.length (map2 (fun a b : R => ndiv (nadd a b) (nofZ 2)) vn vs)) by (rewrite map2_length; congruence).
    rewrite (map2_length _ _ _ L5) in H. destruct (Nat.eqb_spec (List.length sun) (List.length tot)) as [L6|]; [|discriminate]. cbn [rbind] in H.
    inversion H; subst ys ts. clear H. split; [exists f; auto|]. exists tot, vn, vs, sun. split; [exists f; auto|].
    assert (L7 : List.length (map2 nadd tot (map2 (fun a b : R => ndiv (nadd a b) (nofZ 2)) vn vs)) = List.length sun) by (rewrite map2_length; congruence).
    unfold in_array. do 3 (split; [assumption|]). split; [congruence|]. split; [assumption|]. split; [congruence|]. split; [assumption|]. split.
    + rewrite (map2_length _ _ _ L7), (map2_length _ _ _ L5). congruence.
    + intros i. rewrite map2_nth_R; [|rnum; lra|exact L7]. rewrite map2_nth_R; [|rnum; lra|exact L5]. rewrite map2_nth_R; [|rnum; lra|exact L12]. rnum. reflexivity.
  - intros [-> [[f [F Y]] [tot [vn [vs [sun [[f' [F' T]] [VN [VS [S [L1 [L2 [L3 [L4 [L5 H]]]]]]]]]]]]]]]. split; [|reflexivity].
    rewrite F in F'. inversion F'; subst f'. rewrite (proj2 (frame_at_spec _ _ _) F). cbn [rbind].
    rewrite (proj2 (array_at_spec _ _ _) VN), (proj2 (array_at_spec _ _ _) VS), (proj2 (array_at_spec _ _ _) S). cbn [rbind].
    assert (L12 : List.length vn = List.length vs) by congruence.
    rewrite L2, L3, Nat.eqb_refl, (map2_length _ _ _ L12), L2, Nat.eqb_refl. cbn [rbind]. rewrite L4, Nat.eqb_refl. cbn [rbind].
    rewrite (proj2 (fr_col_spec _ _ _) Y), (proj2 (fr_col_spec _ _ _) T). cbn [rbind].
    rewrite (map2_length _ _ _ L12), L1, L2, Nat.eqb_refl. cbn [rbind].
    assert (L6 : List.length tot = List.length (map2 (fun a b : R => ndiv (nadd a b) (nofZ 2)) vn vs)) by (rewrite map2_length; congruence).
    rewrite (map2_length _ _ _ L6), L1, L4, Nat.eqb_refl. cbn [rbind]. do 2 f_equal. 
    assert (L7 : List.length (map2 nadd tot (map2 (fun a b : R => ndiv (nadd a b) (nofZ 2)) vn vs)) = List.length sun) by (rewrite map2_length; congruence).
    apply nth_ext_R; [rewrite map2_length; congruence|]. intros i. rewrite H.
    rewrite map2_nth_R; [|rnum; lra|exact L7]. rewrite map2_nth_R; [|rnum; lra|exact L6]. rewrite map2_nth_R; [|rnum; lra|exact L12]. rnum. reflexivity.
Qed.

(** ** Carbon outputs *)
Lemma cumsum_from_total (l : list R) acc i : (i < List.length l)%nat -> nth i (cumsum_from acc l) 0 = acc + running l i.
Proof.
  revert acc i. induction l as [|x l IH]; intros acc i H; cbn [List.length] in H; [lia|]. cbn [cumsum_from]. destruct i as [|i]; cbn [nth running].
  - rnum. reflexivity.
  - rewrite IH by lia. rnum. assert (G : forall j, running (x :: l) (S j) = x + running l j).
    { induction j as [|j IHj]; [reflexivity|]. change (running (x :: l) (S (S j))) with (running (x :: l) (S j) + nth (S j) l 0). rewrite IHj.
      change (running l (S j)) with (running l j + nth (S j) l 0). lra. }
    change (running (x :: l) i + nth i l 0) with (running (x :: l) (S i)). rewrite G. lra.
Qed.
Lemma cumsum_total (l : list R) i : (i < List.length l)%nat -> nth i (cumsum l) 0 = running l i.
Proof.
  destruct l as [|x l]; intros H; [cbn in H; lia|]. unfold cumsum. destruct i as [|i]; [reflexivity|]. cbn [nth]. cbn [List.length] in H.
  rewrite cumsum_from_total by lia. assert (G : forall j, running (x :: l) (S j) = x + running l j).
  { induction j as [|j IHj]; [reflexivity|]. change (running (x :: l) (S (S j))) with (running (x :: l) (S j) + nth (S j) l 0). rewrite IHj.
    change (running l (S j)) with (running l j + nth (S j) l 0). lra. }
  rewrite G. reflexivity.
Qed.
Lemma cumsum_length (l : list R) : List.length (cumsum l) = List.length l.
Proof.
  assert (G : forall l acc, List.length (cumsum_from (acc : R) l) = List.length l)
    by (clear; induction l as [|x l IH]; intro acc; cbn [cumsum_from List.length]; [reflexivity|]; rewrite IH; reflexivity).
  destruct l; [reflexivity|]. cbn [cumsum List.length]. rewrite G. reflexivity.
Qed.

Lemma get_carbon {A} {N : Num A} nys nye (r : results A) u v c ys ts unit : plain v = true -> dget carbon_cycle_outputs v = Some c ->
  (exists x, dget r "carbon cycle" = Some x) ->
  get_variable_timeseries nys nye r v u = Ok (ys, ts, unit) <->
  ys = window nys nye /\ exists cc, dget r "carbon cycle" = Some (Fr cc) /\ carbon_variable cc c = Ok (ts, unit).
Proof.
  intros P C [x X]. apply plain_spec in P. destruct P as [P1 [P2 P3]]. unfold get_variable_timeseries. cbv zeta. rewrite P1, P2, P3, C, X, <- indices_window. split.
  - intros H. destruct (frame_at r "carbon cycle") as [cc|] eqn:F; [|discriminate]. cbn [rbind] in H. apply frame_at_spec in F.
    destruct (carbon_variable cc c) as [[t w]|] eqn:V; [|discriminate]. cbn [rbind fst snd] in H. inversion H; subst. split; [reflexivity|]. exists cc.
    split; [congruence|exact V].
  - intros [-> [cc [F V]]]. rewrite <- X in F. apply frame_at_spec in F. rewrite F. cbn [rbind]. rewrite V. reflexivity.
Qed.
Lemma c71_without {A} {N : Num A} nys nye (r : results A) u v : In v carbon_variables -> dget r "carbon cycle" = None ->
  get_variable_timeseries nys nye r v u = Ok ([], [], "NoUnit").
Proof.
  intros I H. unfold get_variable_timeseries. cbv zeta. rewrite H.
  assert (K : plain v = true /\ exists c, dget carbon_cycle_outputs v = Some c)
    by (destruct I as [<-|[<-|[<-|[<-|[<-|[<-|[]]]]]]]; (split; [vm_compute; reflexivity|eexists; reflexivity])).
  destruct K as [P [c ->]]. apply plain_spec in P. destruct P as [-> [-> ->]]. reflexivity.
Qed.
Lemma in_frame_any {A} (r : results A) k c v : in_frame r k c v -> exists x, dget r k = Some x.
Proof. intros [f [F _]]. exists (Fr f). exact F. Qed.

Lemma c71_flux {A} {N : Num A} nys nye (r : results A) u v c ys ts unit :
  In (v, c) [("Carbon Flux|Land", "Biosphere carbon flux"); ("Carbon Flux|Ocean", "Ocean carbon flux")] ->
  (exists x, dget r "carbon cycle" = Some x) ->
  get_variable_timeseries nys nye r v u = Ok (ys, ts, unit) <->
  ys = window nys nye /\ in_frame r "carbon cycle" c ts /\ unit = "Pg C / yr".
Proof.
  intros I X. rewrite (get_carbon _ _ _ _ v c); [|destruct I as [I|[I|[]]]; inversion I; subst; vm_compute; reflexivity
    |destruct I as [I|[I|[]]]; inversion I; subst; vm_compute; reflexivity|exact X].
  assert (E : forall cc : frame A, carbon_variable cc c = do ts <- fr_col cc c; Ok (ts, "Pg C / yr"))
    by (intros cc; destruct I as [I|[I|[]]]; inversion I; subst; reflexivity).
  split.
  - intros [-> [cc [F V]]]. rewrite E in V. dbind V. inversion V; subst. apply fr_col_spec in E0. split; [reflexivity|]. split; [exists cc; auto|reflexivity].
  - intros [-> [[cc [F V]] ->]]. split; [reflexivity|]. exists cc. split; [exact F|]. rewrite E, (proj2 (fr_col_spec _ _ _) V). reflexivity.
Qed.
Lemma c71_pool nys nye (r : results R) u v c ys ts unit :
  In (v, c) [("Carbon Pool|Land", "Biosphere carbon flux"); ("Carbon Pool|Ocean", "Ocean carbon flux")] ->
  (exists x, dget r "carbon cycle" = Some x) ->
  get_variable_timeseries nys nye r v u = Ok (ys, ts, unit) <->
  ys = window nys nye /\ unit = "Pg C" /\ exists fl, in_frame r "carbon cycle" c fl /\ List.length ts = List.length fl /\
    forall i, (i < List.length fl)%nat -> nth i ts 0 = running fl i.
Proof.
  intros I X.
  assert (K : plain v = true /\ exists p, dget carbon_cycle_outputs v = Some p /\
    (forall cc : frame R, carbon_variable cc p = do ts <- fr_col cc c; Ok (cumsum ts, "Pg C")))
    by (destruct I as [I|[I|[]]]; inversion I; subst; (split; [vm_compute; reflexivity|]);
        [exists "Biosphere carbon pool"|exists "Ocean carbon pool"]; (split; [reflexivity|intros cc; reflexivity])).
  destruct K as [P [p [D E]]]. rewrite (get_carbon _ _ _ _ v p _ _ _ P D X). split.
  - intros [-> [cc [F V]]]. rewrite E in V. dbind V. inversion V; subst. apply fr_col_spec in E0. split; [reflexivity|]. split; [reflexivity|].
    exists v0. split; [exists cc; auto|]. split; [apply cumsum_length|]. intros i L. apply cumsum_total. exact L.
  - intros [-> [-> [fl [[cc [F V]] [L H]]]]]. split; [reflexivity|]. exists cc. split; [exact F|]. rewrite E, (proj2 (fr_col_spec _ _ _) V). cbn [rbind].
    do 2 f_equal. symmetry. apply (nth_ext _ _ 0 0); [rewrite cumsum_length; exact L|]. intros i Li. rewrite (H i) by lia. symmetry. apply cumsum_total. lia.
Qed.
Lemma c71_net nys nye (r : results R) u ys ts unit cc : dget r "carbon cycle" = Some (Fr cc) -> rectangular cc ->
  get_variable_timeseries nys nye r "Net Flux to Atmosphere|CO2" u = Ok (ys, ts, unit) <->
  ys = window nys nye /\ unit = "Pg C / yr" /\ exists land ocean,
    in_frame r "carbon cycle" "Biosphere carbon flux" land /\ in_frame r "carbon cycle" "Ocean carbon flux" ocean /\
    List.length ts = List.length (fr_index cc) /\ forall i, nth i ts 0 = - (nth i land 0 + nth i ocean 0).
Proof.
  intros X Rect.
  rewrite (get_carbon _ _ _ _ "Net Flux to Atmosphere|CO2" "Net flux to atmosphere"); [|vm_compute; reflexivity|vm_compute; reflexivity|eauto].
  assert (E : forall cc : frame R, carbon_variable cc "Net flux to atmosphere" =
    do b <- fr_col cc "Biosphere carbon flux"; do o <- fr_col cc "Ocean carbon flux"; Ok (map2 (fun b o => - b - o) b o, "Pg C / yr")) by reflexivity.
  split.
  - intros [-> [cc' [F V]]]. rewrite X in F. inversion F; subst cc'. rewrite E in V. dbind V. dbind V. inversion V; subst. apply fr_col_spec in E0, E1.
    split; [reflexivity|]. split; [reflexivity|]. exists v, v0. split; [exists cc; auto|]. split; [exists cc; auto|].
    assert (L : List.length v = List.length v0) by (rewrite (Rect _ _ E0), (Rect _ _ E1); reflexivity).
    split; [rewrite map2_length by exact L; exact (Rect _ _ E0)|]. intros i. rewrite map2_nth_R; [lra|lra|exact L].
  - intros [-> [-> [b [o [[f1 [F1 B]] [[f2 [F2 O]] [L H]]]]]]]. split; [reflexivity|]. exists cc. split; [exact X|].
    rewrite X in F1, F2. inversion F1; inversion F2; subst. rewrite E, (proj2 (fr_col_spec _ _ _) B), (proj2 (fr_col_spec _ _ _) O). cbn [rbind]. do 2 f_equal.
    assert (Lb : List.length b = List.length o) by (rewrite (Rect _ _ B), (Rect _ _ O); reflexivity).
    apply nth_ext_R; [rewrite map2_length by exact Lb; rewrite L; exact (Rect _ _ B)|]. intros i. rewrite H, map2_nth_R; [lra|lra|exact Lb].
Qed.
Lemma c71_airborne {A} {N : Num A} nys nye (r : results A) u ys ts unit : (exists x, dget r "carbon cycle" = Some x) ->
  get_variable_timeseries nys nye r "Airborne fraction CO2" u = Ok (ys, ts, unit) <->
  ys = window nys nye /\ in_frame r "carbon cycle" "Airborne fraction CO2" ts /\ unit = "Unitless".
Proof.
  intros X. rewrite (get_carbon _ _ _ _ "Airborne fraction CO2" "Airborne fraction CO2"); [|vm_compute; reflexivity|vm_compute; reflexivity|exact X].
  assert (E : forall cc : frame A, carbon_variable cc "Airborne fraction CO2" = do ts <- fr_col cc "Airborne fraction CO2"; Ok (ts, "Unitless")) by reflexivity.
  split.
  - intros [-> [cc [F V]]]. rewrite E in V. dbind V. inversion V; subst. apply fr_col_spec in E0. split; [reflexivity|]. split; [exists cc; auto|reflexivity].
  - intros [-> [[cc [F V]] ->]]. split; [reflexivity|]. exists cc. split; [exact F|]. rewrite E, (proj2 (fr_col_spec _ _ _) V). reflexivity.
Qed.
