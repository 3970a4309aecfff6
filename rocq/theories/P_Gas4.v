(** * P_Gas4: stratospheric ozone (C41) *)
From Coq Require Import Reals Lra Psatz.
From Verif Require Import PyBase PyBaseFacts Num M_Gas Spec_Gas P_Gas2 P_Gas3.
Open Scope R_scope.

Lemma power17_nonneg x : 0 <= power17 x.
Proof. unfold power17. destruct (Rle_dec x 0); [lra|]. left. apply exp_pos. Qed.
Lemma power17_mono x y : x <= y -> power17 x <= power17 y.
Proof.
  intros H. unfold power17. destruct (Rle_dec x 0), (Rle_dec y 0); try lra.
  - left; apply exp_pos.
  - apply Rle_Rpower_l; lra.
Qed.
Lemma signed_mono m d d' : 0 <= m -> d <= d' -> signed_power m d <= signed_power m d'.
Proof.
  intros Hm H. unfold signed_power. destruct (Rlt_dec d 0), (Rlt_dec d' 0).
  - apply Ropp_le_contravar, power17_mono. nra.
  - pose proof (power17_nonneg (m * - d)). pose proof (power17_nonneg (m * d')). lra.
  - lra.
  - apply power17_mono. nra.
Qed.
Lemma power17_0 x : x <= 0 -> power17 x = 0.
Proof. intros H. unfold power17. destruct (Rle_dec x 0); lra. Qed.
Lemma signed_odd m d : 0 <= m -> signed_power m (- d) = - signed_power m d.
Proof.
  intros Hm. unfold signed_power. destruct (Rlt_dec (- d) 0), (Rlt_dec d 0); try lra.
  - replace (- - d) with d by ring. reflexivity.
  - assert (d = 0) by lra. subst. rewrite !power17_0 by nra. ring.
Qed.
Lemma signed_0 m : signed_power m 0 = 0.
Proof. unfold signed_power. destruct (Rlt_dec 0 0); [lra|]. apply power17_0. lra. Qed.

Lemma signed_model m d : 0 <= m ->
  nsign d * pow0 (m * Rabs d) (17 / 10) = signed_power m d.
Proof.
  intros Hm. unfold nsign, pow0, signed_power, power17; rnum.
  destruct (Rlt_dec d 0) as [H|H].
  - rewrite Rabs_left by auto. destruct (Req_EM_T (m * - d) 0) as [E|E], (Rle_dec (m * - d) 0); try nra.
  - destruct (Rlt_dec 0 d) as [H1|H1].
    + rewrite Rabs_right by lra. destruct (Req_EM_T (m * d) 0) as [E|E], (Rle_dec (m * d) 0); try nra.
    + assert (d = 0) by lra. subst. rewrite Rmult_0_l. destruct (Rle_dec (m * 0) 0); [reflexivity|]. nra.
Qed.

Lemma fold_sum_err {B C} (f : C -> B -> result C) l e : fold_left (fun acc b => do s <- acc; f s b) l (Err e) = Err e.
Proof. apply fold_err. reflexivity. Qed.

Lemma sumcl_fold (conc : frame R) y0 y d : forall s s', Forall (fun cm => (0 <= snd cm)%Z) d ->
  fold_left (fun acc cm => do s <- acc; do c <- fr_get conc (fst cm) y; do c0 <- fr_get conc (fst cm) y0;
     let num := nsub c c0 in Ok (nadd s (nmul (nsign num) (pow0 (nmul (nofZ (snd cm)) (nabs num)) (dec 17 1))))) d (Ok s) = Ok s' ->
  exists l, changes conc y0 y d l /\ s' = s + loading signed_power l.
Proof.
  induction d as [|[k m] d IH]; intros s s' HF H; cbn [fold_left] in H.
  - inversion H; subst. exists []. split; [constructor|]. cbn. ring.
  - inversion HF as [|? ? Hm HF']; subst. cbn [rbind fst snd] in H, Hm.
    destruct (fr_get conc k y) as [c|] eqn:E1; cbn [rbind] in H; [|rewrite fold_sum_err in H; discriminate].
    destruct (fr_get conc k y0) as [c0|] eqn:E2; cbn [rbind] in H; [|rewrite fold_sum_err in H; discriminate].
    apply IH in H; auto. destruct H as [l [HL HS]]. exists ((IZR m, c - c0) :: l). split.
    + constructor; [|exact HL]. cbn. split; auto. eauto.
    + rewrite HS. cbn [loading].
      assert (E : nmul (nsign (nsub c c0)) (pow0 (nmul (nofZ m) (nabs (nsub c c0))) (dec 17 1)) = signed_power (IZR m) (c - c0)).
      { rewrite <- signed_model by (apply IZR_le in Hm; exact Hm). rnum. reflexivity. }
      cbv zeta. rewrite E. rnum. ring.
Qed.
Lemma sumbr_fold (conc : frame R) y0 y d : forall s s',
  fold_left (fun acc cm => do s <- acc; do c <- fr_get conc (fst cm) y; do c0 <- fr_get conc (fst cm) y0;
     Ok (nadd s (nmul (nofZ (snd cm)) (nsub c c0)))) d (Ok s) = Ok s' ->
  exists l, changes conc y0 y d l /\ s' = s + loading Rmult l.
Proof.
  induction d as [|[k m] d IH]; intros s s' H; cbn [fold_left] in H.
  - inversion H; subst. exists []. split; [constructor|]. cbn. ring.
  - cbn [rbind fst snd] in H.
    destruct (fr_get conc k y) as [c|] eqn:E1; cbn [rbind] in H; [|rewrite fold_sum_err in H; discriminate].
    destruct (fr_get conc k y0) as [c0|] eqn:E2; cbn [rbind] in H; [|rewrite fold_sum_err in H; discriminate].
    apply IH in H; auto. destruct H as [l [HL HS]]. exists ((IZR m, c - c0) :: l). split.
    + constructor; [|exact HL]. cbn. split; auto. eauto.
    + rewrite HS. cbn [loading]. rnum. ring.
Qed.

Lemma mapM_nth {B C} (f : B -> result C) l ys i x : mapM f l = Ok ys -> nth_error l i = Some x ->
  exists y, nth_error ys i = Some y /\ f x = Ok y.
Proof.
  intros H. apply mapM_Forall2 in H. revert i. induction H; intros i Hi; destruct i; cbn in *; try discriminate.
  - inversion Hi; subst. eauto.
  - auto.
Qed.
Lemma mapM_len {B C} (f : B -> result C) l ys : mapM f l = Ok ys -> List.length ys = List.length l.
Proof. intros H. apply mapM_Forall2 in H. induction H; cbn; auto. Qed.
Lemma seq_nth_error n i : (i < n)%nat -> nth_error (seq 0 n) i = Some i.
Proof. intros H. rewrite nth_error_nth' with (d := O) by (rewrite seq_length; auto). rewrite seq_nth by auto. reflexivity. Qed.

Definition nyears {A} (p : hpam A) : nat := List.length (years_of p).

Lemma loading_zero f l : (forall m, f m 0 = 0) -> Forall (fun md : R * R => snd md = 0) l -> loading f l = 0.
Proof.
  intros Hf. induction l as [|[m d] l IH]; intros H; cbn [loading]; [reflexivity|]. inversion H as [|? ? E HF]; subst.
  cbn in E. subst. rewrite Hf, IH by auto. ring.
Qed.
Lemma changes_self conc y d l : changes conc y y d l -> Forall (fun md => snd md = 0) l.
Proof.
  intros H. induction H as [|cm md d l [_ [c [c0 [E1 [E2 E3]]]]] _ IH]; constructor; auto. rewrite E3. assert (c = c0) by congruence. lra.
Qed.

Lemma loss_zero s cl br : Forall (fun md : R * R => snd md = 0) cl -> Forall (fun md : R * R => snd md = 0) br -> ozone_loss s cl br = 0.
Proof.
  intros H1 H2. unfold ozone_loss. rewrite !loading_zero; auto; [field|intros; ring|apply signed_0].
Qed.

Lemma strat_model s cl br : strat_o3 s (loading signed_power cl) (loading Rmult br) = ozone_loss s cl br.
Proof. unfold strat_o3, ozone_loss. rnum. rdec. field. Qed.

Lemma c41_column (p : hpam R) gt conc g col : strat_o3_column p gt conc = Ok col ->
  dget gt "STRAT_O3" = Some g -> Forall (fun cm => (0 <= snd cm)%Z) (cl_dict p) ->
  List.length col = List.length (years_of p) /\
  (forall i, (i < 4)%nat -> nth i col 0 = 0) /\
  forall i, (3 <= i < List.length (years_of p))%nat -> exists cl br,
    changes conc (nystart p) (nystart p + Z.of_nat i - 3) (cl_dict p) cl /\
    changes conc (nystart p) (nystart p + Z.of_nat i - 3) (br_dict p) br /\
    nth i col 0 = ozone_loss (g_sarf g) cl br.
Proof.
  intros H Hg HF. unfold strat_o3_column, key in H. rewrite Hg in H. cbn [rbind] in H.
  pose proof (mapM_len _ _ _ H) as HL. rewrite seq_length in HL.
  assert (HB : forall i, (3 <= i < List.length (years_of p))%nat -> exists cl br,
    changes conc (nystart p) (nystart p + Z.of_nat i - 3) (cl_dict p) cl /\
    changes conc (nystart p) (nystart p + Z.of_nat i - 3) (br_dict p) br /\
    nth i col 0 = ozone_loss (g_sarf g) cl br).
  { intros i Hi. destruct (mapM_nth _ _ _ _ _ H (seq_nth_error (List.length (years_of p)) i ltac:(lia))) as [v [Hv Ev]].
    destruct (Nat.ltb_spec i 3); [lia|].
    destruct (sumcl_at p conc _) as [cl|] eqn:E1; cbn [rbind] in Ev; [|discriminate].
    destruct (sumbr_at p conc _) as [br|] eqn:E2; cbn [rbind] in Ev; [|discriminate].
    unfold sumcl_at in E1. unfold sumbr_at in E2.
    apply sumcl_fold in E1; auto. apply sumbr_fold in E2. destruct E1 as [l1 [C1 S1]]. destruct E2 as [l2 [C2 S2]].
    replace (nystart p + Z.of_nat (i - 3))%Z with (nystart p + Z.of_nat i - 3)%Z in * by lia.
    exists l1, l2. split; [exact C1|]. split; [exact C2|].
    rewrite (nth_error_nth _ _ _ Hv). inversion Ev; subst v. rnum. rewrite S1, S2, !Rplus_0_l. apply strat_model. }
  split; [exact HL|]. split; [|exact HB].
  intros i Hi. destruct (Nat.ltb i (List.length (years_of p))) eqn:EL.
  2:{ apply Nat.ltb_ge in EL. apply nth_overflow. lia. }
  apply Nat.ltb_lt in EL. destruct (Nat.eq_dec i 3) as [->|Hne].
  - destruct (HB 3%nat ltac:(lia)) as [cl [br [C1 [C2 ->]]]].
    replace (nystart p + Z.of_nat 3 - 3)%Z with (nystart p) in * by lia.
    apply loss_zero; eapply changes_self; eauto.
  - destruct (mapM_nth _ _ _ _ _ H (seq_nth_error (List.length (years_of p)) i EL)) as [v [Hv Ev]].
    destruct (Nat.ltb_spec i 3); [|lia]. rewrite (nth_error_nth _ _ _ Hv). inversion Ev; subst v.
    unfold strat_o3. rnum. rdec. field.
Qed.

(** Loss grows with every concentration. *)
Lemma loading_mono f l l' : (forall m d d', 0 <= m -> d <= d' -> f m d <= f m d') ->
  Forall (fun md : R * R => 0 <= fst md) l -> at_least l l' -> loading f l <= loading f l'.
Proof.
  intros Hf HF H. induction H as [|[m d] [m' d'] l l' [E1 E2] _ IH]; cbn [loading]; [lra|].
  cbn in E1, E2. subst m'. inversion HF; subst. cbn in *. specialize (IH ltac:(auto)). pose proof (Hf m d d' ltac:(auto) E2). lra.
Qed.
Lemma loss_mono s cl cl' br br' : 0 <= s -> Forall (fun md : R * R => 0 <= fst md) cl -> Forall (fun md : R * R => 0 <= fst md) br ->
  at_least cl cl' -> at_least br br' -> ozone_loss s cl' br' <= ozone_loss s cl br.
Proof.
  intros Hs F1 F2 A1 A2. unfold ozone_loss.
  pose proof (loading_mono signed_power cl cl' signed_mono F1 A1).
  pose proof (loading_mono Rmult br br' ltac:(intros; nra) F2 A2).
  apply Rmult_le_compat_r; auto. lra.
Qed.
Lemma loss_odd s cl br : Forall (fun md : R * R => 0 <= fst md) cl ->
  ozone_loss s (map (fun md => (fst md, - snd md)) cl) (map (fun md => (fst md, - snd md)) br) = - ozone_loss s cl br.
Proof.
  intros F. unfold ozone_loss.
  assert (E1 : loading signed_power (map (fun md => (fst md, - snd md)) cl) = - loading signed_power cl).
  { induction cl as [|[m d] l IH]; cbn [map loading fst snd]; [ring|]. inversion F; subst. rewrite IH by auto.
    rewrite signed_odd by auto. ring. }
  assert (E2 : loading Rmult (map (fun md => (fst md, - snd md)) br) = - loading Rmult br).
  { clear. induction br as [|[m d] l IH]; cbn [map loading fst snd]; [ring|]. rewrite IH. ring. }
  rewrite E1, E2. field.
Qed.
Lemma loss_nonpos s cl br : 0 <= s -> Forall (fun md : R * R => 0 <= fst md /\ 0 <= snd md) cl ->
  Forall (fun md : R * R => 0 <= fst md /\ 0 <= snd md) br -> ozone_loss s cl br <= 0.
Proof.
  intros Hs F1 F2.
  set (z := map (fun md : R * R => (fst md, 0))).
  assert (Hz : forall l, ozone_loss s (z l) (z br) = 0).
  { intros l. apply loss_zero; unfold z; apply Forall_forall; intros x Hx; apply in_map_iff in Hx; destruct Hx as [y [<- _]]; reflexivity. }
  rewrite <- (Hz cl). apply loss_mono; auto.
  - apply Forall_forall. intros x Hx. unfold z in Hx. apply in_map_iff in Hx. destruct Hx as [y [<- Hy]]. cbn.
    rewrite Forall_forall in F1. apply F1; auto.
  - apply Forall_forall. intros x Hx. unfold z in Hx. apply in_map_iff in Hx. destruct Hx as [y [<- Hy]]. cbn.
    rewrite Forall_forall in F2. apply F2; auto.
  - clear - F1. induction F1 as [|[m d] l [H1 H2] _ IH]; cbn; constructor; auto.
  - clear - F2. induction F2 as [|[m d] l [H1 H2] _ IH]; cbn; constructor; auto.
Qed.

(** Only the halogens of three years before and of the first year matter, whatever the arithmetic. *)
Section Any.
Context {A : Type} {N : Num A}.
Lemma fold_ext_in {B C} (f g : C -> B -> C) l : (forall c b, In b l -> f c b = g c b) -> forall c, fold_left f l c = fold_left g l c.
Proof.
  induction l as [|b l IH]; intros H c; cbn [fold_left]; [reflexivity|]. rewrite (H c b (or_introl eq_refl)).
  apply IH. intros. apply H. right; auto.
Qed.
Lemma c41_lag (p : hpam A) gt c c' col col' i :
  strat_o3_column p gt c = Ok col -> strat_o3_column p gt c' = Ok col' -> (i < List.length (years_of p))%nat ->
  (forall d, In d [cl_dict p; br_dict p] -> same_at c c' (nystart p) d /\ same_at c c' (nystart p + Z.of_nat i - 3) d) ->
  nth_error col i = nth_error col' i.
Proof.
  intros H H' Hi HS. unfold strat_o3_column in *. destruct (key "STRAT_O3" _) as [g|]; cbn [rbind] in *; [|discriminate].
  destruct (mapM_nth _ _ _ _ _ H (seq_nth_error _ i Hi)) as [v [Hv Ev]].
  destruct (mapM_nth _ _ _ _ _ H' (seq_nth_error _ i Hi)) as [v' [Hv' Ev']].
  rewrite Hv, Hv'. f_equal. destruct (Nat.ltb_spec i 3); [congruence|].
  replace (nystart p + Z.of_nat (i - 3))%Z with (nystart p + Z.of_nat i - 3)%Z in * by lia.
  destruct (HS (cl_dict p) (or_introl eq_refl)) as [C0 C1]. destruct (HS (br_dict p) (or_intror (or_introl eq_refl))) as [B0 B1].
  assert (E1 : sumcl_at p c (nystart p + Z.of_nat i - 3) = sumcl_at p c' (nystart p + Z.of_nat i - 3)).
  { unfold sumcl_at. apply fold_ext_in. intros [s|e] [k m] Hin; [|reflexivity]. cbn [rbind fst].
    apply (in_map fst) in Hin. cbn [fst] in Hin. rewrite (C0 k Hin), (C1 k Hin). reflexivity. }
  assert (E2 : sumbr_at p c (nystart p + Z.of_nat i - 3) = sumbr_at p c' (nystart p + Z.of_nat i - 3)).
  { unfold sumbr_at. apply fold_ext_in. intros [s|e] [k m] Hin; [|reflexivity]. cbn [rbind fst].
    apply (in_map fst) in Hin. cbn [fst] in Hin. rewrite (B0 k Hin), (B1 k Hin). reflexivity. }
  rewrite E1, E2 in Ev. congruence.
Qed.
End Any.
