(** * P_Forc: the accumulating loop of conc2forc (C43-C46, C48) *)
From Coq Require Import Reals Lra Psatz.
From Verif Require Import PyBase PyBaseFacts Num M_Gas M_Forcing Spec_Gas Spec_Forc P_Gas2 P_Gas3.
Open Scope R_scope.

Lemma set_nth_len {B} n (v : B) l : List.length (set_nth n v l) = List.length l.
Proof. revert n. induction l as [|x l IH]; intros n; destruct n; cbn; auto. Qed.
Lemma set_nth_nth {B} n (v d : B) l j : (n < List.length l)%nat -> nth j (set_nth n v l) d = if Nat.eqb n j then v else nth j l d.
Proof.
  revert n j. induction l as [|x l IH]; intros n j H; cbn in H; [lia|].
  destruct n, j; cbn; auto. apply IH. lia.
Qed.

(** *** Writing one forcing value *)
Lemma forc_set_spec (p : hpam R) st st' t y q : forc_set p st t y q = Ok st' ->
  exists v, dget (s_forc st) t = Some v /\ (forc_ix p y < List.length v)%nat /\
    s_gas st' = s_gas st /\ s_conc st' = s_conc st /\ s_forc st' = dset (s_forc st) t (set_nth (forc_ix p y) q v).
Proof.
  unfold forc_set, key. destruct (dget (s_forc st) t) as [v|]; cbn [rbind]; [|discriminate].
  destruct (Nat.ltb_spec (forc_ix p y) (List.length v)); [|discriminate]. intros H1; inversion H1; subst.
  exists v. cbn. auto.
Qed.
Definition same_lengths (f f' : dict (list R)) : Prop :=
  dkeys f' = dkeys f /\ forall k v, dget f k = Some v -> exists v', dget f' k = Some v' /\ List.length v' = List.length v.
Lemma same_lengths_refl f : same_lengths f f.
Proof. split; auto. intros; eauto. Qed.
Lemma same_lengths_trans f g h : same_lengths f g -> same_lengths g h -> same_lengths f h.
Proof.
  intros [K1 L1] [K2 L2]. split; [congruence|]. intros k v H. destruct (L1 _ _ H) as [v1 [H1 E1]].
  destruct (L2 _ _ H1) as [v2 [H2 E2]]. exists v2. split; auto. congruence.
Qed.
Lemma dset_same_lengths f t v w : dget f t = Some v -> List.length w = List.length v -> same_lengths f (dset f t w).
Proof.
  intros H E. split.
  - rewrite dkeys_dset. unfold dmem. rewrite H. reflexivity.
  - intros k u Hu. rewrite dget_dset. rewrite (eqb_sym_s t k). destruct (String.eqb_spec k t); [|eauto]. subst. exists w. split; auto. congruence.
Qed.

Lemma forc_set_at (p : hpam R) st st' t y q : forc_set p st t y q = Ok st' ->
  s_gas st' = s_gas st /\ s_conc st' = s_conc st /\ same_lengths (s_forc st) (s_forc st') /\ In t (dkeys (s_forc st)) /\
  (forall k, k <> t -> dget (s_forc st') k = dget (s_forc st) k) /\
  (forall k i, forc_at (s_forc st') k i = if (String.eqb k t && Nat.eqb i (forc_ix p y))%bool then q else forc_at (s_forc st) k i) /\
  (exists v, dget (s_forc st') t = Some v /\ (forc_ix p y < List.length v)%nat).
Proof.
  intros H. destruct (forc_set_spec _ _ _ _ _ _ H) as [v [Hv [Hi [G [C F]]]]]. rewrite F.
  split; [auto|]. split; [auto|]. split; [apply dset_same_lengths with v; auto; apply set_nth_len|].
  split; [apply dget_In_keys; unfold dmem; rewrite Hv; reflexivity|]. split; [|split].
  - intros k Hk. apply dget_dset_neq. congruence.
  - intros k i. unfold forc_at. rewrite dget_dset, (eqb_sym_s t k). destruct (String.eqb_spec k t); cbn [andb]; [|reflexivity].
    subst. rewrite Hv, set_nth_nth by auto. rewrite Nat.eqb_sym. destruct (Nat.eqb_spec i (forc_ix p y)); reflexivity.
  - rewrite dget_dset_eq. eexists. split; [reflexivity|]. rewrite set_nth_len. auto.
Qed.

Lemma forc_get_at (p : hpam R) st t y x : forc_get p st t y = Ok x -> In t (dkeys (s_forc st)) /\ forc_at (s_forc st) t (forc_ix p y) = x.
Proof.
  unfold forc_get, key, forc_at. destruct (dget (s_forc st) t) as [v|] eqn:E; cbn [rbind]; [|discriminate].
  destruct (nth_error v (forc_ix p y)) as [z|] eqn:EN; [|discriminate]. intros H; inversion H; subst. split.
  - apply dget_In_keys. unfold dmem. rewrite E. reflexivity.
  - apply nth_error_nth. auto.
Qed.

(** *** Hemispheres *)
Lemma hemi_sum t q nh sh : fst (hemispheric t q nh sh) + snd (hemispheric t q nh sh) = nh + sh + 2 * q.
Proof.
  unfold hemispheric. destruct (smem t aerosol_split); [|destruct (String.eqb t "TROP_O3"); [|destruct (String.eqb t "LANDUSE")]];
    rnum; rdec; cbn [fst snd]; field.
Qed.

Lemma hemi_share t q nh sh : hemispheric t q nh sh = (nh + north_share t * q, sh + (2 - north_share t) * q).
Proof.
  unfold hemispheric, north_share, aerosol_split.
  match goal with |- (if ?b then _ else _) = _ => destruct b end;
    [|destruct (String.eqb t "TROP_O3"); [|destruct (String.eqb t "LANDUSE")]]; rnum; rdec; f_equal; field.
Qed.


(** *** Sums over names *)
Lemma sum_over_ext g h l : (forall k, In k l -> g k = h k) -> sum_over g l = sum_over h l.
Proof. induction l as [|k l IH]; intros H; cbn; [reflexivity|]. rewrite (H k (or_introl eq_refl)), IH; auto. intros; apply H; right; auto. Qed.
Lemma sum_over_le g h l : (forall k, In k l -> g k <= h k) -> sum_over g l <= sum_over h l.
Proof. induction l as [|k l IH]; intros H; cbn; [lra|]. pose proof (H k (or_introl eq_refl)). specialize (IH ltac:(intros; apply H; right; auto)). lra. Qed.
Lemma sum_over_0 g l : (forall k, In k l -> g k = 0) -> sum_over g l = 0.
Proof. induction l as [|k l IH]; intros H; cbn; [reflexivity|]. rewrite (H k (or_introl eq_refl)), IH; [ring|]. intros; apply H; right; auto. Qed.
Lemma sum_over_plus g h l : sum_over (fun k => g k + h k) l = sum_over g l + sum_over h l.
Proof. induction l as [|k l IH]; cbn; [ring|]. rewrite IH. ring. Qed.
Lemma sum_over_filter (b : string -> bool) g l : sum_over g (filter b l) = sum_over (fun k => if b k then g k else 0) l.
Proof. induction l as [|k l IH]; cbn; [reflexivity|]. destruct (b k); cbn; rewrite IH; ring. Qed.
(** Change one summand. *)
Lemma sum_over_one g h l t : NoDup l -> In t l -> (forall k, In k l -> k <> t -> g k = h k) -> sum_over g l = sum_over h l + (g t - h t).
Proof.
  induction l as [|k l IH]; intros HN Hin He; [contradiction|]. inversion HN; subst. cbn.
  destruct (string_dec k t) as [->|Hne].
  - rewrite (sum_over_ext g h l); [ring|]. intros k' Hk. apply He; [right; auto|]. intros ->; contradiction.
  - destruct Hin as [E|Hin]; [congruence|]. rewrite IH; auto; [|intros; apply He; auto; right; auto].
    rewrite (He k); [ring|left; auto|auto].
Qed.

(** *** One component *)
Definition main3 (k : string) : bool := smem k ["CO2"; "N2O"; "CH4"].

Lemma trop_frame (p : hpam R) conc_in emis y st q st' : tropospheric_ozone p conc_in emis y st = Ok (q, st') ->
  s_forc st' = s_forc st /\ s_gas st' = s_gas st /\ dkeys (s_conc st') = dkeys (s_conc st) /\
  (forall k y', k <> "TROP_O3" \/ y' <> y -> conc_get st' k y' = conc_get st k y').
Proof.
  unfold tropospheric_ozone. destruct (trop_o3_conc _ _ _ st y) as [c|]; cbn [rbind]; [|discriminate].
  destruct (conc_set st "TROP_O3" y c) as [s1|] eqn:E; cbn [rbind]; [|discriminate].
  destruct (conc_get s1 "TROP_O3" y); cbn [rbind]; [|discriminate].
  destruct (conc_get s1 "TROP_O3" (nystart p)); cbn [rbind]; [|discriminate].
  intros H; inversion H; subst. destruct (conc_set_rest _ _ _ _ _ E) as [G [F K]]. repeat split; auto.
  intros k y' D. rewrite (conc_set_get _ _ _ _ _ _ _ E). destruct (String.eqb_spec "TROP_O3" k), (Z.eqb_spec y y'); auto.
  exfalso; destruct D; congruence.
Qed.
Lemma component_frame (p : hpam R) conc_in emis y luc t st q st' : component p conc_in emis y luc t st = Ok (q, st') ->
  s_forc st' = s_forc st /\ s_gas st' = s_gas st /\ dkeys (s_conc st') = dkeys (s_conc st) /\
  (forall k y', k <> "TROP_O3" \/ y' <> y -> conc_get st' k y' = conc_get st k y').
Proof.
  unfold component. intros H.
  destruct (String.eqb t "LANDUSE"); [inversion H; subst; auto|].
  destruct (is_aerosol t).
  { destruct (aerosol_forcing p emis st y t); cbn [rbind] in H; [|discriminate]. inversion H; subst; auto. }
  match type of H with (if ?b then _ else _) = _ => destruct b end.
  { destruct (key t _); cbn [rbind] in H; [|discriminate]. destruct (conc_get st t y); cbn [rbind] in H; [|discriminate].
    destruct (conc_get st t (nystart p)); cbn [rbind] in H; [|discriminate]. inversion H; subst; auto. }
  destruct (String.eqb t "TROP_O3").
  { destruct (tropospheric_ozone p conc_in emis y st) as [[q1 s1]|] eqn:E; cbn [rbind] in H; [|discriminate].
    destruct (sarf st t); cbn [rbind] in H; [|discriminate]. inversion H; subst. cbn [fst snd]. eapply trop_frame; eauto. }
  destruct (String.eqb t "STRAT_H2O").
  { destruct (forc_get p st "CH4" y); cbn [rbind] in H; [|discriminate]. destruct (sarf st t); cbn [rbind] in H; [|discriminate].
    inversion H; subst; auto. }
  inversion H; subst; auto.
Qed.

Section Loop.
Variables (p : hpam R) (conc_in emis : frame R) (y : Z) (luc : R).
Notation i := (forc_ix p y).
Notation turn := (tracer_turn p conc_in emis y luc).

Definition counted (f : dict (list R)) (k : string) : R := if main3 k then 0 else forc_at f k i.
Definition counted_aero (f : dict (list R)) (k : string) : R :=
  if (negb (main3 k) && (negb (String.eqb k "LANDUSE") && is_aerosol k))%bool then Rabs (forc_at f k i) else 0.

Record loop_rel (a a' : run4 R) (l : list string) : Prop := {
  lr_len : same_lengths (s_forc (r_st a)) (s_forc (r_st a'));
  lr_gas : s_gas (r_st a') = s_gas (r_st a);
  lr_conc_keys : dkeys (s_conc (r_st a')) = dkeys (s_conc (r_st a));
  lr_conc : forall k y', k <> "TROP_O3" \/ y' <> y -> conc_get (r_st a') k y' = conc_get (r_st a) k y';
  lr_other : forall k, ~ In k l \/ main3 k = true -> dget (s_forc (r_st a')) k = dget (s_forc (r_st a)) k;
  lr_rows : forall k j, j <> i -> forc_at (s_forc (r_st a')) k j = forc_at (s_forc (r_st a)) k j;
  lr_tot : r_tot a' = r_tot a + sum_over (counted (s_forc (r_st a'))) l;
  lr_nh : r_nh a' = r_nh a + sum_over (fun k => north_share k * counted (s_forc (r_st a')) k) l;
  lr_sh : r_sh a' = r_sh a + sum_over (fun k => (2 - north_share k) * counted (s_forc (r_st a')) k) l;
  lr_aero : r_aero a' = r_aero a + sum_over (counted_aero (s_forc (r_st a'))) l;
  lr_src : forall k, In k l -> main3 k = false -> In k (dkeys (s_forc (r_st a))) /\
    exists s q s', component p conc_in emis y luc k s = Ok (q, s') /\ forc_at (s_forc (r_st a')) k i = q /\
      s_gas s = s_gas (r_st a) /\ dget (s_forc s) "CH4" = dget (s_forc (r_st a)) "CH4" /\
      (forall k' y', k' <> "TROP_O3" -> conc_get s k' y' = conc_get (r_st a) k' y') /\
      (forall k' y', y' <> y -> conc_get s k' y' = conc_get (r_st a) k' y') }.

Lemma turn_rel a a' t : turn (Ok a) t = Ok a' -> loop_rel a a' [t].
Proof.
  unfold tracer_turn. cbn [rbind]. fold (main3 t). destruct (main3 t) eqn:EM.
  { intros H; inversion H; subst. split; auto.
    - apply same_lengths_refl.
    - cbn. unfold counted. rewrite EM. ring.
    - cbn [sum_over]. unfold counted. rewrite EM. ring.
    - cbn [sum_over]. unfold counted. rewrite EM. ring.
    - cbn. unfold counted_aero. rewrite EM. cbn. ring.
    - intros k [<-|[]] C. congruence. }
  destruct (component p conc_in emis y luc t (r_st a)) as [[q s]|] eqn:EC; cbn [rbind fst snd]; [|discriminate].
  destruct (forc_set p s t y q) as [s1|] eqn:ES; cbn [rbind]; [|discriminate].
  intros H. inversion H; subst. clear H.
  destruct (component_frame _ _ _ _ _ _ _ _ _ EC) as [F [G [K C]]].
  destruct (forc_set_at _ _ _ _ _ _ ES) as [G1 [C1 [L1 [I1 [O1 [A1 [v [V1 V2]]]]]]]].
  assert (At : forc_at (s_forc s1) t i = q). { rewrite A1. rewrite String.eqb_refl, Nat.eqb_refl. reflexivity. }
  split; cbn [r_st r_tot r_nh r_sh r_aero].
  - rewrite <- F. exact L1.
  - congruence.
  - rewrite C1. exact K.
  - intros k y' D. transitivity (conc_get s k y'); [unfold conc_get; rewrite C1; reflexivity|]. apply C; auto.
  - intros k D. rewrite O1, F; auto. intros ->. destruct D as [D|D]; [apply D; left; auto|congruence].
  - intros k j Hj. rewrite A1, F. destruct (Nat.eqb_spec j i); [congruence|]. rewrite andb_false_r. reflexivity.
  - cbn [sum_over]. unfold counted. rewrite EM, At. rnum. ring.
  - cbn [sum_over]. unfold counted. rewrite EM, At. rewrite hemi_share. cbn [fst]. ring.
  - cbn [sum_over]. unfold counted. rewrite EM, At. rewrite hemi_share. cbn [snd]. ring.
  - cbn [sum_over]. unfold counted_aero. rewrite EM, At. cbn [negb andb].
    destruct (negb (String.eqb t "LANDUSE") && is_aerosol t)%bool; rnum; ring.
  - intros k [<-|[]] _. split; [rewrite <- F; exact I1|]. exists (r_st a), q, s. repeat split; auto.
Qed.

Lemma loop_nil a : loop_rel a a [].
Proof.
  split; auto; try (cbn; ring). apply same_lengths_refl. intros k [].
Qed.

Lemma loop_cons a b c t l : ~ In t l -> loop_rel a b [t] -> loop_rel b c l -> loop_rel a c (t :: l).
Proof.
  intros Hni [L1 G1 K1 C1 O1 R1 T1 H1 Q1 A1 S1] [L2 G2 K2 C2 O2 R2 T2 H2 Q2 A2 S2].
  assert (Et : forc_at (s_forc (r_st c)) t i = forc_at (s_forc (r_st b)) t i).
  { unfold forc_at. rewrite O2 by (left; exact Hni). reflexivity. }
  split.
  - eapply same_lengths_trans; eauto.
  - congruence.
  - congruence.
  - intros k y' D. rewrite C2, C1; auto.
  - intros k D. rewrite O2, O1; auto.
    + destruct D as [D|D]; auto. left. intros [<-|[]]. apply D; left; auto.
    + destruct D as [D|D]; auto. left. intros X. apply D; right; auto.
  - intros k j Hj. rewrite R2, R1; auto.
  - rewrite T2, T1. cbn [sum_over]. unfold counted at 1 3. rewrite Et. ring.
  - rewrite H2, H1. cbn [sum_over]. unfold counted at 1 3. rewrite Et. ring.
  - rewrite Q2, Q1. cbn [sum_over]. unfold counted at 1 3. rewrite Et. ring.
  - rewrite A2, A1. cbn [sum_over]. unfold counted_aero at 1 3. rewrite Et. ring.
  - intros k [<-|Hin] HM.
    + destruct (S1 t (or_introl eq_refl) HM) as [I [s [q [s' [E1 [E2 E3]]]]]]. split; auto. exists s, q, s'.
      split; auto. split; auto. rewrite Et. exact E2.
    + destruct (S2 k Hin HM) as [I [s [q [s' [E1 [E2 [E3 [E4 [E5 E6]]]]]]]]]. destruct L1 as [L1 _]. split; [rewrite <- L1; exact I|].
      exists s, q, s'. split; auto. split; auto. split; [congruence|]. split; [rewrite E4; apply O1; right; reflexivity|].
      split; [intros; rewrite E5, C1; auto|intros; rewrite E6, C1; auto].
Qed.

Lemma loop_all l : forall a a', NoDup l -> fold_left turn l (Ok a) = Ok a' -> loop_rel a a' l.
Proof.
  induction l as [|t l IH]; intros a a' HN H; cbn [fold_left] in H.
  - inversion H; subst. apply loop_nil.
  - inversion HN; subst. destruct (turn (Ok a) t) as [b|] eqn:E.
    2:{ rewrite fold_err in H by reflexivity. discriminate. }
    apply loop_cons with b; auto. apply turn_rel; auto.
Qed.
End Loop.

(** *** The three main gases *)
Lemma three_spec (p : hpam R) y st tot nh sh st' : forc_three_main p y st = Ok (tot, nh, sh, st') ->
  let f' := s_forc st' in let i := forc_ix p y in
  s_gas st' = s_gas st /\ s_conc st' = s_conc st /\ same_lengths (s_forc st) f' /\
  (forall k, main3 k = false -> dget f' k = dget (s_forc st) k) /\
  (forall k j, j <> i -> forc_at f' k j = forc_at (s_forc st) k j) /\
  (forall k, main3 k = true -> In k (dkeys (s_forc st))) /\
  tot = forc_at f' "CO2" i + forc_at f' "N2O" i + forc_at f' "CH4" i /\ nh = tot /\ sh = tot /\
  exists c0n cn c0c cc c0m cm gc gn gm,
    conc_get st "N2O" (nystart p) = Ok c0n /\ conc_get st "N2O" y = Ok cn /\
    conc_get st "CO2" (nystart p) = Ok c0c /\ conc_get st "CO2" y = Ok cc /\
    conc_get st "CH4" (nystart p) = Ok c0m /\ conc_get st "CH4" y = Ok cm /\
    dget (s_gas st) "CO2" = Some gc /\ dget (s_gas st) "N2O" = Some gn /\ dget (s_gas st) "CH4" = Some gm /\
    forc_at f' "CO2" i = g_sarf gc * rf_co2 c0c cc c0n cn /\
    forc_at f' "N2O" i = g_sarf gn * rf_n2o c0c cc c0n cn c0m cm /\
    forc_at f' "CH4" i = g_sarf gm * rf_ch4 c0n cn c0m cm.
Proof.
  unfold forc_three_main, sarf, key. intros H.
  destruct (conc_get st "N2O" (nystart p)) as [c0n|] eqn:E1; cbn [rbind] in H; [|discriminate].
  destruct (conc_get st "N2O" y) as [cn|] eqn:E2; cbn [rbind] in H; [|discriminate].
  destruct (conc_get st "CO2" (nystart p)) as [c0c|] eqn:E3; cbn [rbind] in H; [|discriminate].
  destruct (conc_get st "CO2" y) as [cc|] eqn:E4; cbn [rbind] in H; [|discriminate].
  destruct (conc_get st "CH4" (nystart p)) as [c0m|] eqn:E5; cbn [rbind] in H; [|discriminate].
  destruct (conc_get st "CH4" y) as [cm|] eqn:E6; cbn [rbind] in H; [|discriminate].
  destruct (dget (s_gas st) "CO2") as [gc|] eqn:E7; cbn [rbind] in H; [|discriminate].
  destruct (dget (s_gas st) "N2O") as [gn|] eqn:E8; cbn [rbind] in H; [|discriminate].
  destruct (dget (s_gas st) "CH4") as [gm|] eqn:E9; cbn [rbind] in H; [|discriminate].
  match type of H with rbind (forc_set p st "CO2" y ?q) _ = _ => set (qc := q) in * end.
  destruct (forc_set p st "CO2" y qc) as [s1|] eqn:F1; cbn [rbind] in H; [|discriminate].
  match type of H with rbind (forc_set p s1 "CH4" y ?q) _ = _ => set (qm := q) in * end.
  destruct (forc_set p s1 "CH4" y qm) as [s2|] eqn:F2; cbn [rbind] in H; [|discriminate].
  match type of H with rbind (forc_set p s2 "N2O" y ?q) _ = _ => set (qn := q) in * end.
  destruct (forc_set p s2 "N2O" y qn) as [s3|] eqn:F3; cbn [rbind] in H; [|discriminate].
  inversion H as [HH]. subst st'. clear H.
  destruct (forc_set_at _ _ _ _ _ _ F1) as [G1 [C1 [L1 [I1 [O1 [A1 _]]]]]].
  destruct (forc_set_at _ _ _ _ _ _ F2) as [G2 [C2 [L2 [I2 [O2 [A2 _]]]]]].
  destruct (forc_set_at _ _ _ _ _ _ F3) as [G3 [C3 [L3 [I3 [O3 [A3 _]]]]]].
  assert (Ac : forc_at (s_forc s3) "CO2" (forc_ix p y) = qc).
  { rewrite A3. cbn [String.eqb Ascii.eqb Bool.eqb andb]. rewrite A2. cbn [String.eqb Ascii.eqb Bool.eqb andb]. rewrite A1, Nat.eqb_refl. reflexivity. }
  assert (Am : forc_at (s_forc s3) "CH4" (forc_ix p y) = qm).
  { rewrite A3. cbn [String.eqb Ascii.eqb Bool.eqb andb]. rewrite A2, Nat.eqb_refl. reflexivity. }
  assert (An : forc_at (s_forc s3) "N2O" (forc_ix p y) = qn).
  { rewrite A3, Nat.eqb_refl. reflexivity. }
  cbv zeta. split; [congruence|]. split; [congruence|].
  split; [eapply same_lengths_trans; [|eapply same_lengths_trans]; eauto|]. split; [|split; [|split; [|split; [|split; [|split]]]]].
  - intros k Hk. unfold main3, smem in Hk. cbn [existsb] in Hk. apply orb_false_iff in Hk. destruct Hk as [Hk1 Hk].
    apply orb_false_iff in Hk. destruct Hk as [Hk2 Hk]. apply orb_false_iff in Hk. destruct Hk as [Hk3 _].
    apply String.eqb_neq in Hk1, Hk2, Hk3. rewrite O3, O2, O1; auto.
  - intros k j Hj. rewrite A3, A2, A1. destruct (Nat.eqb_spec j (forc_ix p y)); [congruence|]. rewrite !andb_false_r. reflexivity.
  - intros k Hk. destruct L1 as [L1 _], L2 as [L2 _]. apply smem_In in Hk. destruct Hk as [<-|[<-|[<-|[]]]]; auto.
    + rewrite <- L1, <- L2. exact I3.
    + rewrite <- L1. exact I2.
  - rewrite Ac, Am, An. rnum. reflexivity.
  - cbn [hemispheric smem existsb aerosol_split String.eqb Ascii.eqb Bool.eqb orb fst snd]. rnum. lra.
  - cbn [hemispheric smem existsb aerosol_split String.eqb Ascii.eqb Bool.eqb orb fst snd]. rnum. lra.
  - exists c0n, cn, c0c, cc, c0m, cm, gc, gn, gm. repeat split; auto.
Qed.
