(** * P_Carbon: replaying a year (any arithmetic) *)
From Coq Require Import ZArith List Bool Lia.
From Verif Require Import Num M_Carbon M_CarbonBack Spec_Carbon.
Import ListNotations.

Lemma upd_length {B} (l : list B) : forall i v, length (upd l i v) = length l.
Proof. induction l as [|x l IH]; intros [|i] v; cbn [upd length]; try reflexivity. rewrite IH. reflexivity. Qed.
Lemma upd_nth_error {B} (l : list B) : forall i v j,
  nth_error (upd l i v) j = if Nat.eqb j i then (if Nat.ltb j (length l) then Some v else None) else nth_error l j.
Proof.
  induction l as [|x l IH]; intros i v j.
  - cbn [upd length]. destruct (Nat.eqb j i); destruct j; reflexivity.
  - destruct i as [|i], j as [|j]; cbn [upd nth_error Nat.eqb]; try reflexivity.
    rewrite IH. cbn [length]. destruct (Nat.eqb j i); [|reflexivity].
    destruct (Nat.ltb_spec j (length l)), (Nat.ltb_spec (S j) (S (length l))); try lia; reflexivity.
Qed.
Lemma nth_nth_error {B} (l m : list B) j d : nth_error l j = nth_error m j -> nth j l d = nth j m d.
Proof. intro H. rewrite <- !nth_default_eq. unfold nth_default. rewrite H. reflexivity. Qed.
Lemma list_ext {B} (l : list B) : forall m, (forall j, nth_error l j = nth_error m j) -> l = m.
Proof.
  induction l as [|x l IH]; intros [|y m] H.
  - reflexivity.
  - discriminate (H 0%nat).
  - discriminate (H 0%nat).
  - pose proof (H 0%nat) as E. cbn in E. injection E as ->. f_equal. apply IH. intro j. exact (H (S j)).
Qed.
Lemma firstn_ext {B} (l m : list B) n : (forall j, (j < n)%nat -> nth_error l j = nth_error m j) -> firstn n l = firstn n m.
Proof.
  revert l m. induction n as [|n IH]; intros l m H; [reflexivity|]. pose proof (H 0%nat ltac:(lia)) as E.
  destruct l as [|x l], m as [|y m]; cbn in E; try discriminate; [reflexivity|]. injection E as ->. cbn [firstn]. f_equal.
  apply IH. intros j Hj. exact (H (S j) ltac:(lia)).
Qed.
Lemma tl_nth_error {B} (l : list B) j : nth_error (tl l) j = nth_error l (S j).
Proof. destruct l; [destruct j; reflexivity|reflexivity]. Qed.

Section Replay.
Context {A : Type} {N : Num A}.
Variable p : cc_pam A.

Definition same_scalars (h h' : cc_state A) : Prop :=
  h_y h = h_y h' /\ h_x h = h_x h' /\ h_emp h = h_emp h' /\ h_ss1 h = h_ss1 h' /\ h_sums h = h_sums h' /\
  h_sol h = h_sol h' /\ h_ml h = h_ml h'.
Definition agree (lo hi : nat) (h h' : cc_state A) : Prop :=
  length (h_s h) = length (h_s h') /\ length (h_d h) = length (h_d h') /\
  (forall j, (j < lo \/ hi <= j)%nat -> nth_error (h_s h) j = nth_error (h_s h') j) /\
  (forall j, (j < lo \/ j = 0 \/ hi <= j)%nat -> nth_error (h_d h) j = nth_error (h_d h') j).

Lemma agree_sym lo hi h h' : agree lo hi h h' -> agree lo hi h' h.
Proof. intros (H1 & H2 & H3 & H4). repeat split; intros; symmetry; auto. Qed.
Lemma agree_trans lo hi h1 h2 h3 : agree lo hi h1 h2 -> agree lo hi h2 h3 -> agree lo hi h1 h3.
Proof.
  intros (H1 & H2 & H3 & H4) (G1 & G2 & G3 & G4). repeat split; intros; try congruence.
  - rewrite H3 by assumption. auto.
  - rewrite H4 by assumption. auto.
Qed.
Lemma agree_refl lo hi h : agree lo hi h h.
Proof. repeat split. Qed.

Lemma step_frame fnpp em h it lo hi : (lo <= it < hi)%nat -> agree lo hi (cc_step p fnpp em h it) h.
Proof.
  intro Hi. unfold agree, cc_step. cbn [h_s h_d].
  repeat split.
  - apply upd_length.
  - destruct (Nat.eqb it 0); [reflexivity|apply upd_length].
  - intros j Hj. rewrite upd_nth_error. destruct (Nat.eqb_spec j it); [lia|reflexivity].
  - intros j Hj. destruct (Nat.eqb_spec it 0); [reflexivity|]. rewrite upd_nth_error.
    destruct (Nat.eqb_spec j it); [lia|reflexivity].
Qed.

Lemma step_agree fnpp em h h' it hi : (it < hi)%nat -> same_scalars h h' -> agree it hi h h' ->
  same_scalars (cc_step p fnpp em h it) (cc_step p fnpp em h' it) /\
  agree (S it) hi (cc_step p fnpp em h it) (cc_step p fnpp em h' it).
Proof.
  intros Hi (S1 & S2 & S3 & S4 & S5 & S6 & S7) (L1 & L2 & As & Ad).
  set (d := if Nat.eqb it 0 then h_d h else upd (h_d h) it (nmul (nmul fnpp (beta_f p)) (nln (ndiv (h_x h) (preind p))))).
  set (d' := if Nat.eqb it 0 then h_d h' else upd (h_d h') it (nmul (nmul fnpp (beta_f p)) (nln (ndiv (h_x h') (preind p))))).
  assert (Ed : forall j, (j <= it \/ j = 0 \/ hi <= j)%nat -> nth_error d j = nth_error d' j).
  { intros j Hj. unfold d, d'. destruct (Nat.eqb_spec it 0) as [E|E]; [apply Ad; lia|].
    rewrite !upd_nth_error, S2, L2. destruct (Nat.eqb_spec j it); [reflexivity|]. apply Ad. lia. }
  assert (Ef : sumf p d it = sumf p d' it).
  { unfold sumf. destruct (Nat.eqb_spec it 0); [reflexivity|]. f_equal. apply firstn_ext.
    intros j Hj. rewrite !tl_nth_error. apply Ed. lia. }
  assert (En : nth it d (nofZ 0) = nth it d' (nofZ 0)) by (apply nth_nth_error, Ed; lia).
  assert (Es1 : nth (it - 1) (h_s h) (nofZ 0) = nth (it - 1) (h_s h') (nofZ 0) \/ it = 0%nat).
  { destruct it; [right; reflexivity|left; apply nth_nth_error, As; lia]. }
  unfold cc_step. fold d d'. cbv zeta.
  rewrite <- S1, <- S3, <- S4, <- S5, <- S6, <- S7, <- Ef, <- En.
  set (emn := ndiv _ PPM_CO2_TO_PG_C).
  match goal with |- context [upd (h_s h) it ?v] => set (v1 := v) end.
  match goal with |- context [upd (h_s h') it ?v] => set (v2 := v) end.
  assert (Ev : v1 = v2).
  { unfold v1, v2. destruct Es1 as [E|E]; [rewrite E; reflexivity|]. subst it. reflexivity. }
  rewrite <- Ev.
  assert (Es : forall j, (j <= it \/ hi <= j)%nat -> nth_error (upd (h_s h) it v1) j = nth_error (upd (h_s h') it v1) j).
  { intros j Hj. rewrite !upd_nth_error, L1. destruct (Nat.eqb_spec j it); [reflexivity|]. apply As. lia. }
  assert (Ez : z_co2 p (upd (h_s h) it v1) (h_ml h) it = z_co2 p (upd (h_s h') it v1) (h_ml h) it).
  { unfold z_co2. f_equal. f_equal.
    - unfold sumz. destruct (Nat.eqb_spec it 0); [reflexivity|]. f_equal. apply firstn_ext. intros j Hj. apply Es. lia.
    - f_equal. apply nth_nth_error, Es. lia. }
  unfold partial_pressure. cbn [h_s h_ml h_sol]. rewrite <- Ez.
  rewrite (nth_nth_error (upd (h_s h') it v1) (upd (h_s h) it v1)) by (symmetry; apply Es; lia).
  split.
  - assert (Esu : it = 0%nat \/ nth (it - 1) (h_s h) (nofZ 0) = nth (it - 1) (h_s h') (nofZ 0)) by tauto.
    unfold same_scalars. cbn [h_y h_x h_emp h_ss1 h_sums h_sol h_ml]. repeat split.
    destruct Esu as [E|E]; [subst it; reflexivity|rewrite E; reflexivity].
  - unfold agree. cbn [h_s h_d]. rewrite !upd_length. repeat split; [exact L1| | |].
    + unfold d, d'. destruct (Nat.eqb it 0); rewrite ?upd_length; exact L2.
    + intros j Hj. apply Es. lia.
    + intros j Hj. apply Ed. lia.
Qed.

Lemma steps_frame fnpp em n : forall h it lo hi, (lo <= it)%nat -> (it + n <= hi)%nat ->
  agree lo hi (fold_left (cc_step p fnpp em) (seq it n) h) h.
Proof.
  induction n as [|n IH]; intros h it lo hi H1 H2; cbn [seq fold_left]; [apply agree_refl|].
  eapply agree_trans; [apply IH; lia|]. apply step_frame. lia.
Qed.
Lemma steps_agree fnpp em n : forall h h' it, same_scalars h h' -> agree it (it + n) h h' ->
  let k := fold_left (cc_step p fnpp em) (seq it n) h in
  let k' := fold_left (cc_step p fnpp em) (seq it n) h' in
  same_scalars k k' /\ agree (it + n) (it + n) k k'.
Proof.
  induction n as [|n IH]; intros h h' it Hs Ha; cbn [seq fold_left].
  - rewrite Nat.add_0_r in *. split; assumption.
  - destruct (step_agree fnpp em h h' it (it + S n) ltac:(lia) Hs Ha) as [S1 A1].
    replace (it + S n)%nat with (S it + n)%nat in * by lia. apply IH; assumption.
Qed.

Lemma state_ext h h' n : same_scalars h h' -> agree n n h h' -> h = h'.
Proof.
  intros (S1 & S2 & S3 & S4 & S5 & S6 & S7) (L1 & L2 & As & Ad).
  assert (E1 : h_s h = h_s h') by (apply list_ext; intro j; apply As; lia).
  assert (E2 : h_d h = h_d h') by (apply list_ext; intro j; apply Ad; lia).
  destruct h, h'; cbn in *; subst; reflexivity.
Qed.

Lemma agree_upd_feedback lo hi h t h' : agree lo hi h h' -> agree lo hi (update_temp_feedbacks p h t) (update_temp_feedbacks p h' t).
Proof. intro H. exact H. Qed.

Lemma call_frame h yr em t : agree (yr * idtm p) (yr * idtm p + idtm p) (fst (co2em2conc p h yr em t)) h.
Proof. unfold co2em2conc. cbn [fst]. apply (steps_frame _ _ (idtm p) (update_temp_feedbacks p h t)); lia. Qed.

Lemma call_agree h h' yr em t :
  agree (yr * idtm p) (yr * idtm p + idtm p) h' h ->
  co2em2conc p (set_hold h' (get_hold h)) yr em t = co2em2conc p h yr em t.
Proof.
  intro Ha. unfold co2em2conc.
  destruct (steps_agree (fnpp_from_temp p t) em (idtm p)
              (update_temp_feedbacks p (set_hold h' (get_hold h)) t) (update_temp_feedbacks p h t) (yr * idtm p)) as [S1 A1].
  - repeat split.
  - exact Ha.
  - rewrite (state_ext _ _ _ S1 A1). reflexivity.
Qed.

Lemma tries_frame h0 yr l : forall h, agree (yr * idtm p) (yr * idtm p + idtm p) h h0 ->
  agree (yr * idtm p) (yr * idtm p + idtm p) (tries p h0 h yr l) h0.
Proof.
  induction l as [|[em t] l IH]; intros h H; cbn [tries]; [exact H|]. apply IH.
  eapply agree_trans; [apply call_frame|]. exact H.
Qed.

Lemma replay_exact h yr l em t :
  co2em2conc p (set_hold (tries p h h yr l) (get_hold h)) yr em t = co2em2conc p h yr em t.
Proof. apply call_agree. apply tries_frame, agree_refl. Qed.
End Replay.
