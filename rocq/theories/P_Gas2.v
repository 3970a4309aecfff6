(** * P_Gas2: frames and the prescribed/computed partition of ordinary gases (C39) *)
From Coq Require Import Reals.
From Verif Require Import PyBase PyBaseFacts Num M_Gas Spec_Gas.
Local Open Scope Z_scope.

Lemma zrange_len a n : List.length (zrange a n) = n.
Proof. unfold zrange. rewrite map_length, seq_length. reflexivity. Qed.
Lemma zrange_nth a n i : (i < n)%nat -> nth_error (zrange a n) i = Some (a + Z.of_nat i).
Proof.
  intros H. unfold zrange. erewrite map_nth_error; [reflexivity|].
  rewrite nth_error_nth' with (d := O) by (rewrite seq_length; auto). rewrite seq_nth by auto. reflexivity.
Qed.
Lemma zrange_S a n : zrange a (S n) = a :: zrange (a + 1) n.
Proof.
  unfold zrange. cbn [seq map]. rewrite Z.add_0_r. f_equal. rewrite <- seq_shift, map_map.
  apply map_ext. intros. lia.
Qed.
Lemma zrange_app a n m : zrange a (n + m) = zrange a n ++ zrange (a + Z.of_nat n) m.
Proof.
  revert a. induction n as [|n IH]; intros a; cbn [Nat.add].
  - rewrite Z.add_0_r. reflexivity.
  - rewrite !zrange_S, IH. cbn [app]. do 3 f_equal. lia.
Qed.
Lemma zrange_firstn a n k : firstn k (zrange a n) = zrange a (Nat.min k n).
Proof.
  revert a n. induction k as [|k IH]; intros a n; [reflexivity|].
  destruct n as [|n]; [reflexivity|]. cbn [Nat.min]. rewrite !zrange_S. cbn [firstn]. rewrite IH. reflexivity.
Qed.
Lemma zrange_skipn a n k : skipn k (zrange a n) = zrange (a + Z.of_nat k) (n - k).
Proof.
  revert a n. induction k as [|k IH]; intros a n.
  - rewrite Z.add_0_r, Nat.sub_0_r. reflexivity.
  - destruct n as [|n]; [reflexivity|]. rewrite zrange_S. cbn [skipn Nat.sub]. rewrite IH. f_equal. lia.
Qed.

(** Slices within range. *)
Lemma slice_in n i : 0 <= i -> i <= n -> slice_pos n i = Z.to_nat i.
Proof. intros H1 H2. unfold slice_pos. destruct (Z.ltb_spec i 0); [lia|]. rewrite Z.min_l by lia. reflexivity. Qed.
Lemma pyslice_in {B} (l : list B) a b : 0 <= a -> a <= b -> b <= Z.of_nat (List.length l) ->
  pyslice l a b = firstn (Z.to_nat (b - a)) (skipn (Z.to_nat a) l).
Proof.
  intros H1 H2 H3. unfold pyslice. rewrite !slice_in by lia. f_equal. lia.
Qed.
Lemma pyslice_zrange f n a b : f <= a -> a <= b -> b <= f + Z.of_nat n ->
  pyslice (zrange f n) (a - f) (b - f) = zrange a (Z.to_nat (b - a)).
Proof.
  intros H1 H2 H3. rewrite pyslice_in by (rewrite ?zrange_len; lia).
  rewrite zrange_skipn, zrange_firstn. rewrite Nat.min_l by lia. f_equal; lia.
Qed.
Lemma nth_error_skipn {B} (l : list B) k i : nth_error (skipn k l) i = nth_error l (k + i).
Proof.
  revert k. induction l as [|x l IH]; intros k; destruct k; cbn [skipn Nat.add]; auto.
  - destruct i; reflexivity.
  - rewrite IH. reflexivity.
Qed.
Lemma nth_error_firstn {B} (l : list B) k i : (i < k)%nat -> nth_error (firstn k l) i = nth_error l i.
Proof.
  revert k i. induction l as [|x l IH]; intros k i H; destruct k; try lia; cbn [firstn].
  - reflexivity.
  - destruct i; [reflexivity|]. cbn [nth_error]. apply IH. lia.
Qed.
Lemma pyslice_nth {B} (l : list B) a b i : 0 <= a -> a <= b -> b <= Z.of_nat (List.length l) ->
  0 <= i < b - a -> nth_error (pyslice l a b) (Z.to_nat i) = nth_error l (Z.to_nat (a + i)).
Proof.
  intros. rewrite pyslice_in by auto. rewrite nth_error_firstn by lia. rewrite nth_error_skipn. f_equal. lia.
Qed.
Lemma pyslice_len {B} (l : list B) a b : 0 <= a -> a <= b -> b <= Z.of_nat (List.length l) ->
  List.length (pyslice l a b) = Z.to_nat (b - a).
Proof. intros. rewrite pyslice_in by auto. rewrite firstn_length, skipn_length. lia. Qed.

(** Lookups in yearly frames. *)
Lemma yget_zrange {B} (v : list B) : forall f y, f <= y ->
  yget (combine (zrange f (List.length v)) v) y = nth_error v (Z.to_nat (y - f)).
Proof.
  induction v as [|x v IH]; intros f y H; cbn [List.length].
  - destruct (Z.to_nat (y - f)); reflexivity.
  - rewrite zrange_S. cbn [combine yget]. destruct (Z.eqb_spec f y) as [E|E].
    + subst. rewrite Z.sub_diag. reflexivity.
    + rewrite IH by lia. replace (Z.to_nat (y - f)) with (S (Z.to_nat (y - (f + 1)))) by lia. reflexivity.
Qed.
Lemma fr_get_yearly {A} (fr : frame A) f n c v y : yearly fr f n -> dget (fr_cols fr) c = Some v -> f <= y < f + Z.of_nat n ->
  exists x, nth_error v (Z.to_nat (y - f)) = Some x /\ fr_get fr c y = Ok x.
Proof.
  intros [Hi [Hn Hc]] Hv Hy. pose proof (Hc _ _ Hv) as Hl.
  destruct (nth_error v (Z.to_nat (y - f))) as [x|] eqn:E.
  - exists x. split; auto. unfold fr_get, fr_col, key. rewrite Hv. cbn [rbind]. rewrite Hi, <- Hl, yget_zrange by lia.
    rewrite E. reflexivity.
  - exfalso. apply nth_error_None in E. lia.
Qed.

(** mapM *)
Lemma mapM_ok {B C} (f : B -> result C) l : (forall x, In x l -> exists y, f x = Ok y) -> exists ys, mapM f l = Ok ys.
Proof.
  induction l as [|x l IH]; intros H; cbn [mapM]; [eauto|].
  destruct (H x (or_introl eq_refl)) as [y Hy]. rewrite Hy. cbn [rbind].
  destruct IH as [ys Hys]; [intros; apply H; right; auto|]. rewrite Hys. cbn [rbind]. eauto.
Qed.
Lemma mapM_Forall2 {B C} (f : B -> result C) l : forall ys, mapM f l = Ok ys -> Forall2 (fun x y => f x = Ok y) l ys.
Proof.
  induction l as [|x l IH]; intros ys H; cbn [mapM] in H.
  - inversion H; constructor.
  - destruct (f x) as [y|] eqn:E; cbn [rbind] in H; [|discriminate].
    destruct (mapM f l) as [zs|]; cbn [rbind] in H; [|discriminate]. inversion H; subst. constructor; auto.
Qed.
Lemma mapM_keys {B C} (f : string * B -> result C) (l : dict B) : forall ys,
  mapM (fun kg => do c <- f kg; Ok (fst kg, c)) l = Ok ys ->
  dkeys ys = dkeys l /\ forall k, match dget l k with
    | Some g => exists c, f (k, g) = Ok c /\ dget ys k = Some c
    | None => dget ys k = None end.
Proof.
  induction l as [|[k0 g0] l IH]; intros ys H; cbn [mapM] in H.
  - inversion H; subst. split; [reflexivity|intros; reflexivity].
  - destruct (f (k0, g0)) as [c|] eqn:E; cbn [rbind fst] in H; [|discriminate].
    destruct (mapM _ l) as [zs|] eqn:EM; cbn [rbind] in H; [|discriminate]. inversion H; subst.
    destruct (IH _ eq_refl) as [HK HG]. split; [cbn; f_equal; exact HK|].
    intros k. cbn [dget]. destruct (String.eqb_spec k0 k); [subst; eauto|apply HG].
Qed.

Lemma last_rev {B} (l : list B) : (0 < List.length l)%nat -> exists x t, rev l = x :: t /\ nth_error l (List.length l - 1) = Some x.
Proof.
  destruct l as [|a l] using rev_ind; cbn; [lia|]. intros _. exists a, (rev l). rewrite rev_app_distr. split; [reflexivity|].
  rewrite app_length. cbn. rewrite Nat.add_sub. rewrite nth_error_app2 by lia. rewrite Nat.sub_diag. reflexivity.
Qed.

Section Any.
Context {A : Type} {N : Num A}.

Lemma vec_years_len (g : gas A) ems : forall c, List.length (vec_years g c ems) = List.length ems.
Proof. induction ems; intros; cbn [vec_years List.length]; auto. Qed.
Lemma vec_years_nth (g : gas A) ems : forall c i e, nth_error ems i = Some e ->
  exists prev, (match i with O => Some c | S j => nth_error (vec_years g c ems) j end) = Some prev /\
    nth_error (vec_years g c ems) i = Some (vec_step g e prev).
Proof.
  induction ems as [|e0 r IH]; intros c i e H; destruct i as [|i]; cbn [nth_error] in H; try discriminate.
  - inversion H; subst. exists c. split; reflexivity.
  - cbn [vec_years nth_error]. destruct (IH (vec_step g e0 c) i e H) as [prev [HP HQ]].
    destruct i as [|j]; cbn [nth_error]; exists prev; split; auto.
Qed.

Lemma c39_precalc (p : hpam A) gv conc_in emis cf cn ef en :
  yearly conc_in cf cn -> yearly emis ef en -> wf gv ->
  has_columns conc_in (dkeys gv) -> has_columns emis (dkeys gv) ->
  cf <= nystart p -> nystart p <= nyend p -> nyend p < cf + Z.of_nat cn ->
  ef <= nystart p -> nyend p < ef + Z.of_nat en ->
  conc_run p = true \/ nyend p <= emstart p \/ nystart p < emstart p ->
  exists pc, precalc_conc p gv conc_in emis = Ok pc /\ fr_index pc = years_of p /\ dkeys (fr_cols pc) = dkeys gv /\
    yearly pc (nystart p) (Z.to_nat (nyend p - nystart p + 1)) /\
    forall k g y, dget gv k = Some g -> nystart p <= y <= nyend p ->
      (prescribed_year p y -> exists c, fr_get conc_in k y = Ok c /\ fr_get pc k y = Ok c) /\
      (~ prescribed_year p y -> exists c e, fr_get pc k (y - 1) = Ok c /\ fr_get emis k y = Ok e /\
          fr_get pc k y = Ok (vec_step g e c)).
Proof.
  intros HC HE HW HCc HEc H1 H2 H3 H4 H5 Hcase.
  pose proof HC as [Ci [Cn Cc]]. pose proof HE as [Ei [En Ec]].
  unfold precalc_conc.
  destruct (mapM_ok (fun kg : string * gas A => do v <- fr_col conc_in (fst kg); Ok (fst kg, v)) gv) as [cols Hcols].
  { intros [k g] Hin. cbn [fst]. destruct (HCc k) as [v Hv]; [apply (in_map fst) in Hin; exact Hin|].
    exists (k, v). unfold fr_col, key. rewrite Hv. reflexivity. }
  rewrite Hcols. cbn [rbind].
  apply (mapM_keys (fun kg : string * gas A => fr_col conc_in (fst kg))) in Hcols. destruct Hcols as [HK HG].
  destruct (fr_index conc_in) as [|c0 l0] eqn:EI0; [destruct cn; [lia|rewrite zrange_S in Ci; discriminate]|].
  assert (c0 = cf) by (destruct cn; [lia|rewrite zrange_S in Ci; inversion Ci; reflexivity]). subst c0. rewrite Ci.
  destruct (conc_run p || (nyend p <=? emstart p)) eqn:EP.
  - (* prescribed throughout *)
    assert (HP : forall y, prescribed_year p y).
    { intros y. apply orb_true_iff in EP. destruct EP as [E|E]; [left; auto|right; left]. apply Z.leb_le; auto. }
    eexists. split; [reflexivity|]. cbn [fr_index fr_cols].
    replace (nyend p - cf + 1) with (nyend p + 1 - cf) by lia. rewrite pyslice_zrange by lia.
    split; [unfold years_of; f_equal; lia|]. split; [unfold dkeys in *; rewrite map_map; exact HK|].
    assert (HV : forall k v, dget (map (fun kv : string * list A => (fst kv, pyslice (snd kv) (nystart p - cf) (nyend p + 1 - cf))) cols) k = Some v ->
                exists u, dget cols k = Some u /\ v = pyslice u (nystart p - cf) (nyend p + 1 - cf)).
    { clear. intros k v. induction cols as [|[k0 u0] l IH]; cbn [map dget fst snd]; [discriminate|].
      destruct (String.eqb k0 k); [|exact IH]. intros E; inversion E; subst. eauto. }
    assert (HU : forall k u, dget cols k = Some u -> dget (fr_cols conc_in) k = Some u).
    { intros k u Hu. specialize (HG k). destruct (dget gv k).
      - destruct HG as [c [Hc' Hd]]. rewrite Hu in Hd. inversion Hd; subst. cbn [fst] in Hc'.
        unfold fr_col, key in Hc'. destruct (dget (fr_cols conc_in) k); [inversion Hc'; reflexivity|discriminate].
      - congruence. }
    assert (HY : yearly {| fr_index := zrange (nystart p) (Z.to_nat (nyend p + 1 - nystart p));
        fr_cols := map (fun kv : string * list A => (fst kv, pyslice (snd kv) (nystart p - cf) (nyend p + 1 - cf))) cols |}
        (nystart p) (Z.to_nat (nyend p - nystart p + 1))).
    { split; [cbn [fr_index]; f_equal; lia|]. split; [lia|]. intros k v Hv. cbn [fr_cols] in Hv.
      destruct (HV _ _ Hv) as [u [Hu ->]]. pose proof (Cc _ _ (HU _ _ Hu)) as L.
      rewrite pyslice_len by lia. lia. }
    split; [exact HY|].
    intros k g y Hg Hy. split; [intros _|intros C; exfalso; apply C, HP].
    specialize (HG k). rewrite Hg in HG. destruct HG as [u [_ Hu]].
    pose proof (HU _ _ Hu) as Hu'. pose proof (Cc _ _ Hu') as L.
    destruct (fr_get_yearly conc_in cf cn k u y HC Hu' ltac:(lia)) as [x [Hx Gx]].
    exists x. split; auto.
    destruct (fr_get_yearly _ (nystart p) _ k (pyslice u (nystart p - cf) (nyend p + 1 - cf)) y HY) as [x' [Hx' Gx']].
    { cbn [fr_cols]. clear - Hu. induction cols as [|[k0 u0] l IH]; cbn [map dget fst snd] in *; [discriminate|].
      destruct (String.eqb k0 k); [inversion Hu; reflexivity|auto]. }
    { lia. }
    rewrite Gx'. rewrite pyslice_nth in Hx' by lia. f_equal.
    replace (nystart p - cf + (y - nystart p)) with (y - cf) in Hx' by lia. congruence.
  - (* computed from emstart on *)
    apply orb_false_iff in EP. destruct EP as [ER EL]. apply Z.leb_gt in EL.
    assert (Hem : nystart p < emstart p) by (destruct Hcase as [X|[X|X]]; [congruence|lia|exact X]).
    assert (HP : forall y, prescribed_year p y <-> y < emstart p).
    { intros y. unfold prescribed_year. split; [intros [X|[X|X]]; [congruence|lia|exact X]|auto]. }
    destruct (fr_index emis) as [|e0 l1] eqn:EI1; [destruct en; [lia|rewrite zrange_S in Ei; discriminate]|].
    assert (e0 = ef) by (destruct en; [lia|rewrite zrange_S in Ei; inversion Ei; reflexivity]). subst e0. rewrite Ei.
    replace (nyend p - ef + 1) with (nyend p + 1 - ef) by lia.
    set (F := fun kg : string * gas A => do v <- fr_col conc_in (fst kg); do e <- fr_col emis (fst kg);
        precalc_column (snd kg) (pyslice v (nystart p - cf) (emstart p - cf)) (pyslice e (emstart p - ef) (nyend p + 1 - ef))).
    assert (HF : forall k g, In (k, g) gv -> exists v e x, dget (fr_cols conc_in) k = Some v /\ dget (fr_cols emis) k = Some e /\
        nth_error (pyslice v (nystart p - cf) (emstart p - cf)) (Z.to_nat (emstart p - 1 - nystart p)) = Some x /\
        F (k, g) = Ok (pyslice v (nystart p - cf) (emstart p - cf)
                       ++ vec_years g x (pyslice e (emstart p - ef) (nyend p + 1 - ef)))).
    { intros k g Hin. assert (Hk : In k (dkeys gv)) by (apply (in_map fst) in Hin; exact Hin).
      destruct (HCc k Hk) as [v Hv]. destruct (HEc k Hk) as [e He]. exists v, e.
      pose proof (Cc _ _ Hv) as Lv. pose proof (Ec _ _ He) as Le.
      assert (LP : List.length (pyslice v (nystart p - cf) (emstart p - cf)) = Z.to_nat (emstart p - nystart p)).
      { rewrite pyslice_len by lia. f_equal; lia. }
      assert (LQ : List.length (pyslice e (emstart p - ef) (nyend p + 1 - ef)) = Z.to_nat (nyend p + 1 - emstart p)).
      { rewrite pyslice_len by lia. f_equal; lia. }
      destruct (last_rev (pyslice v (nystart p - cf) (emstart p - cf))) as [x [t [Hr Hl]]]; [lia|].
      exists x. repeat split; auto.
      - rewrite <- Hl. f_equal. lia.
      - unfold F, fr_col, key. cbn [fst snd]. rewrite Hv. cbn [rbind]. rewrite He. cbn [rbind].
        unfold precalc_column. rewrite Hr. destruct (pyslice e _ _); [cbn [List.length] in LQ; lia|reflexivity]. }
    match goal with |- exists pc, rbind (mapM ?f gv) _ = _ /\ _ =>
      assert (EF : mapM f gv = mapM (fun kg => do c <- F kg; Ok (fst kg, c)) gv) end.
    { clear. induction gv as [|[k g] l IH]; [reflexivity|]. cbn [mapM]. rewrite IH. unfold F. cbn [fst snd].
      destruct (fr_col conc_in k); cbn [rbind]; [|reflexivity]. destruct (fr_col emis k); cbn [rbind]; reflexivity. }
    rewrite EF. clear EF.
    destruct (mapM_ok (fun kg => do c <- F kg; Ok (fst kg, c)) gv) as [out Hout].
    { intros [k g] Hin. destruct (HF k g Hin) as [v [e [x [_ [_ [_ HFk]]]]]]. rewrite HFk. cbn [rbind]. eauto. }
    rewrite Hout. cbn [rbind]. apply (mapM_keys F) in Hout. destruct Hout as [HK' HG'].
    eexists. split; [reflexivity|]. cbn [fr_index fr_cols].
    assert (EI : pyslice (zrange cf cn) (nystart p - cf) (emstart p - cf)
              ++ pyslice (zrange ef en) (emstart p - ef) (nyend p + 1 - ef)
              = zrange (nystart p) (Z.to_nat (nyend p - nystart p + 1))).
    { rewrite !pyslice_zrange by lia.
      replace (Z.to_nat (nyend p - nystart p + 1))
        with (Z.to_nat (emstart p - nystart p) + Z.to_nat (nyend p + 1 - emstart p))%nat by lia.
      rewrite zrange_app. do 2 f_equal. lia. }
    rewrite EI.
    split; [reflexivity|]. split; [exact HK'|].
    assert (HY : yearly {| fr_index := zrange (nystart p) (Z.to_nat (nyend p - nystart p + 1)); fr_cols := out |}
        (nystart p) (Z.to_nat (nyend p - nystart p + 1))).
    { split; [reflexivity|]. split; [lia|]. intros k v Hv. cbn [fr_cols] in Hv. specialize (HG' k).
      destruct (dget gv k) as [g|] eqn:Eg; [|congruence]. destruct HG' as [c [Hc' Hd]]. rewrite Hv in Hd. inversion Hd; subst c.
      destruct (HF k g (dget_Some_In _ _ _ Eg)) as [u [e [x [Hu [He [Hx HFk]]]]]]. rewrite HFk in Hc'. inversion Hc'; subst v.
      pose proof (Cc _ _ Hu). pose proof (Ec _ _ He).
      rewrite app_length, vec_years_len, !pyslice_len by lia. lia. }
    split; [exact HY|].
    intros k g y Hg Hy. rewrite HP.
    specialize (HG' k). rewrite Hg in HG'. destruct HG' as [c [Hc' Hd]].
    destruct (HF k g (dget_Some_In _ _ _ Hg)) as [u [e [x [Hu [He [Hx HFk]]]]]]. rewrite HFk in Hc'. inversion Hc'; subst c. clear Hc'.
    pose proof (Cc _ _ Hu) as Lu. pose proof (Ec _ _ He) as Le.
    assert (LP : List.length (pyslice u (nystart p - cf) (emstart p - cf)) = Z.to_nat (emstart p - nystart p)).
    { rewrite pyslice_len by lia. f_equal; lia. }
    split; intros Hpre.
    + destruct (fr_get_yearly conc_in cf cn k u y HC Hu ltac:(lia)) as [z [Hz Gz]]. exists z. split; auto.
      destruct (fr_get_yearly _ _ _ k _ y HY Hd ltac:(lia)) as [z' [Hz' Gz']]. rewrite Gz'. f_equal.
      rewrite nth_error_app1 in Hz' by lia. rewrite pyslice_nth in Hz' by lia.
      replace (nystart p - cf + (y - nystart p)) with (y - cf) in Hz' by lia. congruence.
    + destruct (fr_get_yearly emis ef en k e y HE He ltac:(lia)) as [ey [Hey Gey]].
      destruct (fr_get_yearly _ _ _ k _ y HY Hd ltac:(lia)) as [z [Hz Gz]].
      destruct (fr_get_yearly _ _ _ k _ (y - 1) HY Hd ltac:(lia)) as [w [Hw Gw]].
      exists w, ey. split; [exact Gw|]. split; [exact Gey|]. rewrite Gz. f_equal.
      rewrite nth_error_app2 in Hz by lia. rewrite LP in Hz.
      assert (Hei : nth_error (pyslice e (emstart p - ef) (nyend p + 1 - ef)) (Z.to_nat (y - emstart p)) = Some ey).
      { rewrite pyslice_nth by lia. rewrite <- Hey. f_equal. lia. }
      destruct (vec_years_nth g (pyslice e (emstart p - ef) (nyend p + 1 - ef)) x _ _ Hei) as [prev [Hprev Hnow]].
      replace (Z.to_nat (y - nystart p) - Z.to_nat (emstart p - nystart p))%nat with (Z.to_nat (y - emstart p)) in Hz by lia.
      assert (w = prev).
      { destruct (Z.to_nat (y - emstart p)) as [|j] eqn:Ej.
        - inversion Hprev; subst prev. rewrite nth_error_app1 in Hw by lia.
          replace (Z.to_nat (y - 1 - nystart p)) with (Z.to_nat (emstart p - 1 - nystart p)) in Hw by lia. congruence.
        - rewrite nth_error_app2 in Hw by lia. rewrite LP in Hw.
          replace (Z.to_nat (y - 1 - nystart p) - Z.to_nat (emstart p - nystart p))%nat with j in Hw by lia. congruence. }
      subst. congruence.
Qed.

(** Emissions from the first year on: there is no prescribed year to start from. *)
Lemma c39_no_start (p : hpam A) k g gv conc_in emis cf cn ef en :
  yearly conc_in cf cn -> yearly emis ef en ->
  has_columns conc_in (dkeys ((k, g) :: gv)) -> has_columns emis (dkeys ((k, g) :: gv)) ->
  cf <= emstart p -> nyend p < cf + Z.of_nat cn -> ef <= emstart p -> nyend p < ef + Z.of_nat en ->
  conc_run p = false -> emstart p < nyend p -> emstart p <= nystart p -> nystart p <= nyend p ->
  precalc_conc p ((k, g) :: gv) conc_in emis = Err IndexError.
Proof.
  intros HC HE HCc HEc H1 H3 H4 H5 Hr Hl Hs Hn.
  pose proof HC as [Ci [Cn Cc]]. pose proof HE as [Ei [En Ec]].
  unfold precalc_conc.
  destruct (mapM_ok (fun kg : string * gas A => do v <- fr_col conc_in (fst kg); Ok (fst kg, v)) ((k, g) :: gv)) as [cols Hcols].
  { intros [k' g'] Hin. cbn [fst]. destruct (HCc k') as [v Hv]; [apply (in_map fst) in Hin; exact Hin|].
    exists (k', v). unfold fr_col, key. rewrite Hv. reflexivity. }
  rewrite Hcols. cbn [rbind]. destruct (fr_index conc_in) as [|c0 l0] eqn:EI0; [destruct cn; [lia|rewrite zrange_S in Ci; discriminate]|].
  assert (c0 = cf) by (destruct cn; [lia|rewrite zrange_S in Ci; inversion Ci; reflexivity]). subst c0. rewrite Ci.
  rewrite Hr. cbn [orb]. destruct (Z.leb_spec (nyend p) (emstart p)); [lia|].
  destruct (fr_index emis) as [|e0 l1] eqn:EI1; [destruct en; [lia|rewrite zrange_S in Ei; discriminate]|].
  assert (e0 = ef) by (destruct en; [lia|rewrite zrange_S in Ei; inversion Ei; reflexivity]). subst e0. rewrite Ei.
  cbn [mapM fst snd].
  destruct (HCc k (or_introl eq_refl)) as [v Hv]. destruct (HEc k (or_introl eq_refl)) as [e He].
  unfold fr_col, key. rewrite Hv. cbn [rbind]. rewrite He. cbn [rbind].
  pose proof (Cc _ _ Hv) as Lv. pose proof (Ec _ _ He) as Le.
  assert (EP : pyslice v (nystart p - cf) (emstart p - cf) = []).
  { unfold pyslice. rewrite !slice_in by lia. replace (Z.to_nat (emstart p - cf) - Z.to_nat (nystart p - cf))%nat with O by lia.
    reflexivity. }
  rewrite EP. unfold precalc_column. cbn [rev].
  assert (LQ : List.length (pyslice e (emstart p - ef) (nyend p - ef + 1)) = Z.to_nat (nyend p + 1 - emstart p)).
  { rewrite pyslice_len by lia. f_equal; lia. }
  destruct (pyslice e _ _); [cbn [List.length] in LQ; lia|]. reflexivity.
Qed.
End Any.
