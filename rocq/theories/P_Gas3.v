(** * P_Gas3: the yearly concentration update of the handler (C39, main gases) *)
From Verif Require Import PyBase PyBaseFacts Num M_Gas Spec_Gas P_Gas2.
Local Open Scope Z_scope.

Lemma yget_yset {V} (d : list (Z * V)) y v y' : yget (yset d y v) y' = if Z.eqb y y' then Some v else yget d y'.
Proof.
  induction d as [|[k w] r IH]; cbn [yset yget].
  - destruct (Z.eqb_spec y y'); reflexivity.
  - destruct (Z.eqb_spec k y).
    + subst. cbn [yget]. destruct (Z.eqb_spec y y'); reflexivity.
    + cbn [yget]. rewrite IH. destruct (Z.eqb_spec k y'), (Z.eqb_spec y y'); congruence.
Qed.

Ltac dbind H := match type of H with
  | rbind ?e _ = Ok _ => let v := fresh "v" in let E := fresh "E" in destruct e as [v|] eqn:E; cbn [rbind] in H; [|discriminate H] end.
Ltac okinv H := match type of H with Ok ?a = Ok ?b => let E := fresh "E" in assert (E : a = b) by (inversion H; reflexivity); clear H end.

Section Any.
Context {A : Type} {N : Num A}.

Lemma conc_set_get (st st' : hst A) t y v t' y' : conc_set st t y v = Ok st' ->
  conc_get st' t' y' = if String.eqb t t' && Z.eqb y y' then Ok v else conc_get st t' y'.
Proof.
  unfold conc_set, conc_get, key. intros H.
  destruct (dget (s_conc st) t) as [d|] eqn:E; cbn [rbind] in H; [|discriminate]. inversion H; subst. cbn [s_conc set_conc].
  rewrite dget_dset. rewrite (eqb_sym_s t t'). destruct (String.eqb_spec t' t).
  - subst. rewrite E. cbn [rbind andb]. rewrite yget_yset. destruct (Z.eqb y y'); reflexivity.
  - cbn [andb]. reflexivity.
Qed.
Lemma conc_set_rest (st st' : hst A) t y v : conc_set st t y v = Ok st' ->
  s_gas st' = s_gas st /\ s_forc st' = s_forc st /\ dkeys (s_conc st') = dkeys (s_conc st).
Proof.
  unfold conc_set, key. intros H.
  destruct (dget (s_conc st) t) as [d|] eqn:E; cbn [rbind] in H; [|discriminate]. inversion H; subst. cbn [s_gas s_forc s_conc set_conc].
  repeat split; auto. rewrite dkeys_dset. unfold dmem. rewrite E. reflexivity.
Qed.
Lemma conc_set_ok (st : hst A) t y v : In t (dkeys (s_conc st)) -> exists st', conc_set st t y v = Ok st'.
Proof.
  intros H. apply dget_In_keys in H. apply dmem_true in H. destruct H as [d Hd].
  unfold conc_set, key. rewrite Hd. cbn. eauto.
Qed.

Lemma fold_err {B C} (f : result C -> B -> result C) l e : (forall b, f (Err e) b = Err e) -> fold_left f l (Err e) = Err e.
Proof. intros H. induction l; cbn [fold_left]; [reflexivity|]. rewrite H. exact IHl. Qed.

Definition prescribed_value (conc_in : frame A) (t : string) (y : Z) : result A :=
  if dmem (fr_cols conc_in) t then fr_get conc_in t y else Ok (nofZ 0).

Lemma fill_fold conc_in y avoid l : forall st st' : hst A, NoDup l ->
  fold_left (fun acc t => do s <- acc;
      if smem t avoid then Ok s
      else if dmem (fr_cols conc_in) t then do v <- fr_get conc_in t y; conc_set s t y v
      else conc_set s t y (nofZ 0)) l (Ok st) = Ok st' ->
  s_gas st' = s_gas st /\ s_forc st' = s_forc st /\ dkeys (s_conc st') = dkeys (s_conc st) /\
  (forall t, In t l -> ~ In t avoid -> conc_get st' t y = prescribed_value conc_in t y /\ exists v, conc_get st' t y = Ok v) /\
  (forall t y', y' <> y \/ In t avoid \/ ~ In t l -> conc_get st' t y' = conc_get st t y').
Proof.
  induction l as [|t l IH]; intros st st' HN H; cbn [fold_left] in H.
  - inversion H; subst. repeat split; auto; intros; contradiction.
  - inversion HN as [|? ? Hni HN']; subst. cbn [rbind] in H.
    destruct (smem t avoid) eqn:EA.
    + apply smem_In in EA. destruct (IH _ _ HN' H) as [G [F [K [P O]]]]. split; [auto|]. split; [auto|]. split; [auto|]. split.
      * intros t' [<-|Hin] Hav; [contradiction|apply P; auto].
      * intros t' y' D. apply O. destruct D as [D|[D|D]]; auto. right; right. intros X; apply D; right; auto.
    + assert (HNA : ~ In t avoid) by (intros X; apply smem_In in X; congruence).
      match type of H with fold_left _ _ ?x = _ => destruct x as [s1|er] eqn:ES end.
      2:{ rewrite fold_err in H by reflexivity. discriminate. }
      assert (HS : exists v, conc_set st t y v = Ok s1 /\ prescribed_value conc_in t y = Ok v).
      { unfold prescribed_value. destruct (dmem (fr_cols conc_in) t); [|eauto].
        destruct (fr_get conc_in t y); cbn [rbind] in ES; [eauto|discriminate]. }
      destruct HS as [v [HS HV]]. destruct (IH _ _ HN' H) as [G [F [K [P O]]]].
      destruct (conc_set_rest _ _ _ _ _ HS) as [G1 [F1 K1]].
      assert (HT : conc_get st' t y = Ok v).
      { rewrite O by (right; right; exact Hni). rewrite (conc_set_get _ _ _ _ _ t y HS).
        rewrite String.eqb_refl, Z.eqb_refl. reflexivity. }
      split; [congruence|]. split; [congruence|]. split; [congruence|]. split.
      * intros t' [<-|Hin] Hav; [|apply P; auto]. split; [congruence|eauto].
      * intros t' y' D. rewrite O.
        2:{ destruct D as [D|[D|D]]; auto. right; right. intros X; apply D; right; auto. }
        rewrite (conc_set_get _ _ _ _ _ t' y' HS).
        destruct (String.eqb_spec t t'); [|reflexivity]. destruct (Z.eqb_spec y y'); [|reflexivity]. exfalso.
        subst. destruct D as [D|[D|D]]; [congruence|contradiction|]. apply D. left; auto.
Qed.

Section Emi.
Variables (S Fb : Type) (co2 : S -> Z -> A -> Fb -> S * A).
Variables (p : hpam A) (conc_in emis nat_ch4 nat_n2o : frame A).
Notation e2c := (emi2conc S Fb co2 p conc_in emis nat_ch4 nat_n2o).
Notation turn := (emi2conc_tracer S Fb co2 p conc_in emis nat_ch4 nat_n2o).

Lemma c39_conc_run y fb cc cc' (st st' : hst A) : wf (s_conc st) -> conc_run p = true ->
  e2c y fb cc st = Ok (cc', st') ->
  cc' = cc /\ dkeys (s_conc st') = dkeys (s_conc st) /\
  (forall t, In t (dkeys (s_conc st)) -> dmem (fr_cols conc_in) t = true -> exists v, fr_get conc_in t y = Ok v /\ conc_get st' t y = Ok v) /\
  (forall t y', y' <> y -> conc_get st' t y' = conc_get st t y').
Proof.
  intros W R H. unfold emi2conc in H. rewrite R in H.
  destruct (fill_one_row conc_in y [] st) as [s1|] eqn:E; cbn [rbind] in H; [|discriminate]. inversion H; subst.
  unfold fill_one_row in E. apply fill_fold in E; [|exact W]. destruct E as [G [F [K [P O]]]].
  repeat split; auto.
  intros t Hin Hc. destruct (P t Hin ltac:(auto)) as [E [v Hv]]. exists v. unfold prescribed_value in E. rewrite Hc in E.
  split; congruence.
Qed.

Lemma co2_year_spec cc cc' y fb (st st' : hst A) : co2_year S Fb co2 emis cc y fb st = Ok (cc', st') ->
  exists ff af g, fr_get emis "CO2_FF" y = Ok ff /\ fr_get emis "CO2_AFOLU" y = Ok af /\ dget (s_gas st) "CO2" = Some g /\
    let r := co2 cc y (nadd (nadd ff af) (g_nat g)) fb in cc' = fst r /\ conc_set st "CO2" y (snd r) = Ok st'.
Proof.
  unfold co2_year, co2_emission, key. intros H.
  destruct (fr_get emis "CO2_FF" y) as [ff|] eqn:E1; cbn [rbind] in H; [|discriminate].
  destruct (fr_get emis "CO2_AFOLU" y) as [af|] eqn:E2; cbn [rbind] in H; [|discriminate].
  destruct (dget (s_gas st) "CO2") as [g|] eqn:E3; cbn [rbind] in H; [|discriminate].
  destruct (conc_set st "CO2" y _) as [s1|] eqn:E4; cbn [rbind] in H; [|discriminate].
  inversion H; subst. exists ff, af, g. cbn. auto.
Qed.

Lemma c39_before y fb cc cc' (st st' : hst A) : wf (s_conc st) -> conc_run p = false -> y < emstart p ->
  e2c y fb cc st = Ok (cc', st') ->
  (exists ff af g, fr_get emis "CO2_FF" y = Ok ff /\ fr_get emis "CO2_AFOLU" y = Ok af /\ dget (s_gas st) "CO2" = Some g /\
     let r := co2 cc y (nadd (nadd ff af) (g_nat g)) fb in cc' = fst r /\ conc_get st' "CO2" y = Ok (snd r)) /\
  dkeys (s_conc st') = dkeys (s_conc st) /\
  (forall t, In t (dkeys (s_conc st)) -> t <> "CO2" -> dmem (fr_cols conc_in) t = true ->
     exists v, fr_get conc_in t y = Ok v /\ conc_get st' t y = Ok v) /\
  (forall t y', y' <> y -> conc_get st' t y' = conc_get st t y').
Proof.
  intros W R L H. unfold emi2conc in H. rewrite R in H. destruct (Z.ltb_spec y (emstart p)); [|lia].
  destruct (co2_year S Fb co2 emis cc y fb st) as [[cc1 s1]|] eqn:EC; cbn [rbind fst snd] in H; [|discriminate].
  destruct (fill_one_row conc_in y ["CO2"] s1) as [s2|] eqn:E; cbn [rbind] in H; [|discriminate]. inversion H; subst.
  destruct (co2_year_spec _ _ _ _ _ _ EC) as [ff [af [g [E1 [E2 [E3 [E4 E5]]]]]]].
  destruct (conc_set_rest _ _ _ _ _ E5) as [G1 [F1 K1]].
  unfold fill_one_row in E. apply fill_fold in E; [|rewrite K1; exact W]. destruct E as [G [F [K [P O]]]].
  split; [|split; [congruence|split]].
  - exists ff, af, g. repeat split; auto. rewrite O by (right; left; left; auto).
    rewrite (conc_set_get _ _ _ _ _ _ _ E5). rewrite Z.eqb_refl. reflexivity.
  - intros t Hin Hne Hc. rewrite <- K1 in Hin. destruct (P t Hin) as [X [v Hv]]; [intros [Y|[]]; congruence|].
    exists v. unfold prescribed_value in X. rewrite Hc in X. split; congruence.
  - intros t y' D. rewrite O by auto. rewrite (conc_set_get _ _ _ _ _ _ _ E5).
    destruct (Z.eqb_spec y y'); [congruence|]. rewrite andb_false_r. reflexivity.
Qed.

Notation computed := (computed p conc_in emis nat_ch4 nat_n2o).
Notation co2_done := (co2_done S Fb co2 emis).

Lemma turn_spec y fb cc cc' (st st' : hst A) t : turn y fb (Ok (cc, st)) t = Ok (cc', st') ->
  dkeys (s_conc st') = dkeys (s_conc st) /\ s_forc st' = s_forc st /\
  (forall k, k <> t -> dget (s_gas st') k = dget (s_gas st) k) /\
  (forall k y', k <> t \/ y' <> y -> conc_get st' k y' = conc_get st k y') /\
  (t <> "CO2" -> cc' = cc /\ computed y st st' t) /\
  (t = "CO2" -> co2_done y fb cc cc' st st').
Proof.
  intros H. unfold emi2conc_tracer in H. cbn [rbind] in H. unfold key in H at 1.
  destruct (dget (s_gas st) t) as [g|] eqn:Eg; cbn [rbind] in H; [|discriminate].
  destruct (String.eqb_spec (g_unit g) "-") as [Eu|Eu].
  { inversion H; subst. split; [auto|]. split; [auto|]. split; [auto|]. split; [auto|]. split.
    - intros _. split; [auto|]. intros g' Hg Hu. congruence.
    - intros -> g' Hg Hu. congruence. }
  destruct (String.eqb_spec t "CO2") as [->|Hn].
  { destruct (co2_year_spec _ _ _ _ _ _ H) as [ff [af [g' [E1 [E2 [E3 [E4 E5]]]]]]].
    destruct (conc_set_rest _ _ _ _ _ E5) as [G1 [F1 K1]]. split; [auto|]. split; [auto|]. split; [|split; [|split; [congruence|]]].
    - intros k Hk. rewrite G1. reflexivity.
    - intros k y' D. rewrite (conc_set_get _ _ _ _ _ _ _ E5).
      destruct (String.eqb_spec "CO2" k), (Z.eqb_spec y y'); auto. exfalso; destruct D; congruence.
    - intros _ gc Hgc Hu. rewrite E3 in Hgc. inversion Hgc; subst g'. exists ff, af. repeat split; auto.
      rewrite (conc_set_get _ _ _ _ _ _ _ E5). rewrite Z.eqb_refl. reflexivity. }
  match type of H with rbind ?e _ = _ => destruct e as [prev|] eqn:EP; cbn [rbind] in H; [|discriminate] end.
  match type of H with rbind ?e _ = _ => destruct e as [[g' q']|] eqn:EG; cbn [rbind] in H; [|discriminate] end.
  destruct (fr_get emis t y) as [e|] eqn:EE; cbn [rbind] in H; [|discriminate].
  match type of H with rbind ?e _ = _ => destruct e as [s1|] eqn:ES; cbn [rbind] in H; [|discriminate] end.
  inversion H; subst cc' st'. clear H.
  destruct (conc_set_rest _ _ _ _ _ ES) as [G1 [F1 K1]]. cbn [s_gas s_forc s_conc set_gas] in G1, F1, K1.
  assert (HB : g_beta g' = g_beta g /\
     (t = "CH4" -> fr_get nat_ch4 "CH4" y = Ok (g_nat g') /\ methane_lifetime p emis g (ndiv (nofZ 1) (g_tau1 g)) prev y = Ok q') /\
     (t = "N2O" -> fr_get nat_n2o "N2O" y = Ok (g_nat g')) /\
     (t <> "CH4" -> q' = ndiv (nofZ 1) (g_tau1 g)) /\ (t <> "CH4" -> t <> "N2O" -> g_nat g' = g_nat g)).
  { destruct (String.eqb_spec t "CH4") as [->|N1].
    - destruct (fr_get nat_ch4 "CH4" y) as [n|]; cbn [rbind] in EG; [|discriminate].
      destruct (methane_lifetime p emis g _ prev y) as [qq|]; cbn [rbind] in EG; [|discriminate].
      inversion EG; subst. cbn. repeat split; auto; intros; congruence.
    - destruct (String.eqb_spec t "N2O") as [->|N2].
      + destruct (fr_get nat_n2o "N2O" y) as [n|]; cbn [rbind] in EG; [|discriminate].
        inversion EG; subst. cbn. repeat split; auto; intros; congruence.
      + inversion EG; subst. repeat split; auto; intros; congruence. }
  destruct HB as [B1 [B2 [B3 [B4 B5]]]].
  split; [exact K1|]. split; [exact F1|]. split; [|split; [|split]].
  - intros k Hk. rewrite G1. apply dget_dset_neq. congruence.
  - intros k y' D. rewrite (conc_set_get _ _ _ _ _ _ _ ES).
    destruct (String.eqb_spec t k), (Z.eqb_spec y y'); cbn [andb]; auto; try reflexivity. exfalso; destruct D; congruence.
  - intros _. split; [reflexivity|]. intros g0 Hg0 _. rewrite Eg in Hg0. inversion Hg0; subst g0.
    exists prev, e, (g_nat g'), q'. split; [exact EP|]. split; [exact EE|]. split.
    + rewrite (conc_set_get _ _ _ _ _ _ _ ES). rewrite String.eqb_refl, Z.eqb_refl. cbn [andb]. rewrite B1. reflexivity.
    + auto.
  - intros; contradiction.
Qed.

Lemma loop_spec y fb l : forall cc cc' (st st' : hst A), NoDup l ->
  fold_left (turn y fb) l (Ok (cc, st)) = Ok (cc', st') ->
  dkeys (s_conc st') = dkeys (s_conc st) /\ s_forc st' = s_forc st /\
  (forall k, ~ In k l -> dget (s_gas st') k = dget (s_gas st) k) /\
  (forall k y', ~ In k l \/ y' <> y -> conc_get st' k y' = conc_get st k y') /\
  (forall t, In t l -> t <> "CO2" -> computed y st st' t) /\
  (In "CO2" l -> co2_done y fb cc cc' st st') /\ (~ In "CO2" l -> cc' = cc).
Proof.
  induction l as [|t l IH]; intros cc cc' st st' HN H; cbn [fold_left] in H.
  - inversion H; subst. repeat split; auto; intros; contradiction.
  - inversion HN as [|? ? Hni HN']; subst.
    match type of H with fold_left _ _ ?x = _ => destruct x as [[cc1 s1]|er] eqn:ES end.
    2:{ rewrite fold_err in H by reflexivity. discriminate. }
    destruct (turn_spec _ _ _ _ _ _ _ ES) as [K1 [F1 [G1 [C1 [T1 X1]]]]].
    destruct (IH _ _ _ _ HN' H) as [K2 [F2 [G2 [C2 [T2 [X2 Z2]]]]]].
    split; [congruence|]. split; [congruence|]. split; [|split; [|split; [|split]]].
    + intros k Hk. rewrite G2 by (intros X; apply Hk; right; auto). apply G1. intros ->; apply Hk; left; auto.
    + intros k y' D. rewrite C2 by (destruct D as [D|D]; auto; left; intros X; apply D; right; auto).
      apply C1. destruct D as [D|D]; auto. left. intros ->; apply D; left; auto.
    + intros k [<-|Hin] Hne.
      * destruct (T1 Hne) as [_ T]. intros g Hg Hu. destruct (T g Hg Hu) as [prev [e [n [q [P1 [P2 [P3 P4]]]]]]].
        exists prev, e, n, q. split; [exact P1|]. split; [exact P2|]. split; [|exact P4].
        rewrite C2 by (left; exact Hni). exact P3.
      * assert (k <> t) by (intros ->; contradiction).
        intros g Hg Hu. destruct (T2 k Hin Hne g) as [prev [e [n [q [P1 [P2 [P3 P4]]]]]]]; auto.
        { rewrite G1; auto. }
        exists prev, e, n, q. split; [|auto]. rewrite <- P1. destruct (y >? nystart p); [|reflexivity].
        symmetry. apply C1. left; auto.
    + intros [->|Hin].
      * intros gc Hg Hu. destruct (X1 eq_refl gc Hg Hu) as [ff [af [P1 [P2 [P3 P4]]]]]. exists ff, af.
        split; [exact P1|]. split; [exact P2|]. cbv zeta. rewrite Z2 by exact Hni. split; [exact P3|].
        rewrite C2 by (left; exact Hni). exact P4.
      * assert (Hne : "CO2" <> t) by (intros <-; contradiction).
        intros gc Hg Hu. destruct (T1 (not_eq_sym Hne)) as [-> _]. apply X2; auto. rewrite G1; auto.
    + intros Hno. rewrite Z2 by (intros X; apply Hno; right; auto). apply T1. intros ->; apply Hno; left; auto.
Qed.

Lemma zeros_get y (st : hst A) t y' : y' <> y -> conc_get (add_row_of_zeros y st) t y' = conc_get st t y'.
Proof.
  intros D. unfold conc_get, add_row_of_zeros, key. cbn [s_conc set_conc].
  induction (s_conc st) as [|[k d] l IH]; cbn [map dget fst snd]; [reflexivity|].
  destruct (String.eqb k t); [|exact IH]. cbn [rbind]. rewrite yget_yset. destruct (Z.eqb_spec y y'); [congruence|reflexivity].
Qed.
Lemma zeros_keys y (st : hst A) : dkeys (s_conc (add_row_of_zeros y st)) = dkeys (s_conc st).
Proof. unfold add_row_of_zeros, dkeys. cbn. rewrite map_map. reflexivity. Qed.

Lemma c39_after y fb cc cc' (st st' : hst A) : wf (s_conc st) -> conc_run p = false -> emstart p <= y ->
  e2c y fb cc st = Ok (cc', st') ->
  (In "CO2" (dkeys (s_conc st)) -> co2_done y fb cc cc' st st') /\
  dkeys (s_conc st') = dkeys (s_conc st) /\
  (forall t, In t (dkeys (s_conc st)) -> t <> "CO2" -> computed y st st' t) /\
  (forall t y', y' <> y -> conc_get st' t y' = conc_get st t y').
Proof.
  intros W R L H. unfold emi2conc in H. rewrite R in H. destruct (Z.ltb_spec y (emstart p)); [lia|].
  apply loop_spec in H; [|exact W]. destruct H as [K [F [G [C [T [X _]]]]]].
  split; [|split; [rewrite K; apply zeros_keys|split]].
  - intros Hin. exact (X Hin).
  - intros t Hin Hne g Hg Hu. destruct (T t Hin Hne g Hg Hu) as [prev [e [n [q [P1 P2]]]]].
    exists prev, e, n, q. split; [|exact P2]. destruct (y >? nystart p); [|exact P1]. rewrite <- P1. symmetry. apply zeros_get. lia.
  - intros t y' D. rewrite C by auto. apply zeros_get. auto.
Qed.
End Emi.
End Any.
