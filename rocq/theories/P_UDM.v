(** * P_UDM: the tridiagonal solver and the assembled systems *)
From Coq Require Import Reals ZArith List Lra Lia Bool.
From Verif Require Import Num M_TwoLayer M_UDM Spec_UDM.
Import ListNotations.
Open Scope R_scope.

(** ** arrays *)
Lemma tab_length {B} n (f : nat -> B) : length (tab n f) = n.
Proof. unfold tab; rewrite map_length, seq_length; reflexivity. Qed.
Lemma nth_tab {B} n (f : nat -> B) i d : (i < n)%nat -> nth i (tab n f) d = f i.
Proof.
  intro H. unfold tab. rewrite (nth_indep _ d (f 0%nat)) by (rewrite map_length, seq_length; exact H).
  rewrite map_nth, seq_nth by exact H. reflexivity.
Qed.
Lemma nth_tab_out {B} n (f : nat -> B) i d : (n <= i)%nat -> nth i (tab n f) d = d.
Proof. intro H. apply nth_overflow. rewrite tab_length; exact H. Qed.
Lemma tab_ext {B} n (f g : nat -> B) : (forall i, (i < n)%nat -> f i = g i) -> tab n f = tab n g.
Proof. intro H. unfold tab. apply map_ext_in. intros i Hi. apply in_seq in Hi. apply H; lia. Qed.
Lemma tab_S {B} n (f : nat -> B) : tab (S n) f = f 0%nat :: tab n (fun i => f (S i)).
Proof. unfold tab. cbn [seq map]. f_equal. rewrite <- seq_shift, map_map. reflexivity. Qed.
Lemma tab_nth (l : list R) d : tab (length l) (fun i => nth i l d) = l.
Proof.
  induction l as [|x l IH]; [reflexivity|]. cbn [length]. rewrite tab_S. cbn [nth]. f_equal. exact IH.
Qed.
Lemma list_ext (l m : list R) : length l = length m ->
  (forall i, (i < length l)%nat -> nth i l 0 = nth i m 0) -> l = m.
Proof. intros Hl H. apply (nth_ext l m 0 0); assumption. Qed.

Lemma Forall_tab {B} (P : B -> Prop) n f : (forall i, (i < n)%nat -> P (f i)) -> Forall P (tab n f).
Proof.
  intro H. apply Forall_forall. intros x Hx. unfold tab in Hx. apply in_map_iff in Hx.
  destruct Hx as (i & <- & Hi). apply in_seq in Hi. apply H. lia.
Qed.

(** ** the solver *)
Fixpoint pivots (cp : R) (rows : list (row R)) : Prop :=
  match rows with
  | [] => True
  | r :: rest => r_b r - r_l r * cp <> 0 /\ pivots (r_u r / (r_b r - r_l r * cp)) rest
  end.
Fixpoint sat (prev : R) (rows : list (row R)) (xs : list R) : Prop :=
  match rows, xs with
  | [], [] => True
  | r :: rest, x :: xs' => r_l r * prev + r_b r * x + r_u r * hd 0 xs' = r_d r /\ sat x rest xs'
  | _, _ => False
  end.

Lemma thomas_cons cp dp r rest : thomas cp dp (r :: rest) =
  ((r_d r - r_l r * dp) / (r_b r - r_l r * cp) - r_u r / (r_b r - r_l r * cp) *
    hd 0 (thomas (r_u r / (r_b r - r_l r * cp)) ((r_d r - r_l r * dp) / (r_b r - r_l r * cp)) rest))
  :: thomas (r_u r / (r_b r - r_l r * cp)) ((r_d r - r_l r * dp) / (r_b r - r_l r * cp)) rest.
Proof.
  cbn [thomas]. rnum.
  destruct (thomas (r_u r / (r_b r - r_l r * cp)) ((r_d r - r_l r * dp) / (r_b r - r_l r * cp)) rest) eqn:E;
    cbn [hd]; [|reflexivity].
  f_equal. rewrite Rmult_0_r, Rminus_0_r. reflexivity.
Qed.
Lemma thomas_length rows : forall cp dp, length (thomas (A:=R) cp dp rows) = length rows.
Proof.
  induction rows as [|r rest IH]; intros; [reflexivity|]. rewrite thomas_cons.
  cbn [length]. rewrite IH; reflexivity.
Qed.
Lemma thomas_sat rows : forall cp dp, pivots cp rows ->
  sat (dp - cp * hd 0 (thomas cp dp rows)) rows (thomas cp dp rows).
Proof.
  induction rows as [|r rest IH]; intros cp dp Hp; [exact I|].
  rewrite thomas_cons. destruct Hp as [Hm Hp]. cbn [sat hd]. split.
  - field. exact Hm.
  - apply IH. exact Hp.
Qed.
Lemma sat_thomas rows : forall cp dp xs, pivots cp rows ->
  sat (dp - cp * hd 0 xs) rows xs -> xs = thomas cp dp rows.
Proof.
  induction rows as [|r rest IH]; intros cp dp xs Hp Hs.
  - destruct xs; [reflexivity|contradiction].
  - destruct xs as [|x xs]; [contradiction|]. destruct Hp as [Hm Hp]. destruct Hs as [He Hs].
    cbn [hd] in He. rewrite thomas_cons.
    assert (Hx : x = (r_d r - r_l r * dp) / (r_b r - r_l r * cp) - r_u r / (r_b r - r_l r * cp) * hd 0 xs).
    { apply (Rmult_eq_reg_l (r_b r - r_l r * cp)); [|exact Hm].
      transitivity (r_d r - r_l r * dp - r_u r * hd 0 xs); [lra|field; exact Hm]. }
    assert (Hxs : xs = thomas (r_u r / (r_b r - r_l r * cp)) ((r_d r - r_l r * dp) / (r_b r - r_l r * cp)) rest).
    { apply IH; [exact Hp|]. rewrite <- Hx. exact Hs. }
    rewrite <- Hxs. f_equal. exact Hx.
Qed.

(** index form *)
Definition prevx (prev : R) (xs : list R) (i : nat) : R := match i with O => prev | S j => nth j xs 0 end.
Lemma sat_index rows : forall prev xs, sat prev rows xs <->
  (length xs = length rows /\ forall i r, nth_error rows i = Some r ->
     r_l r * prevx prev xs i + r_b r * nth i xs 0 + r_u r * nth (i + 1) xs 0 = r_d r).
Proof.
  induction rows as [|r rest IH]; intros prev xs.
  - destruct xs; cbn [sat]; split; intro H.
    + split; [reflexivity|]. intros [|i] r' E; discriminate.
    + exact I.
    + contradiction.
    + destruct H as [H _]; discriminate.
  - destruct xs as [|x xs]; cbn [sat].
    + split; [contradiction|]. intros [H _]; discriminate.
    + split.
      * intros [He Hs]. apply IH in Hs. destruct Hs as [Hl Hs]. split; [cbn [length]; rewrite Hl; reflexivity|].
        intros [|i] r' E.
        -- injection E as <-. cbn [prevx nth Nat.add]. destruct xs; exact He.
        -- specialize (Hs i r' E). cbn [Nat.add nth prevx]. destruct i; exact Hs.
      * intros [Hl Hs]. split.
        -- specialize (Hs 0%nat r eq_refl). cbn [prevx nth Nat.add] in Hs. destruct xs; exact Hs.
        -- apply IH. split; [cbn [length] in Hl; congruence|]. intros i r' E.
           specialize (Hs (S i) r' E). cbn [Nat.add nth prevx] in Hs. destruct i; exact Hs.
Qed.

Lemma band_rows_length (a b c d : list R) : length (band_rows a b c d) = length d.
Proof. apply tab_length. Qed.
Lemma nth_error_tab {B} n (f : nat -> B) i r : nth_error (tab n f) i = Some r -> (i < n)%nat /\ r = f i.
Proof.
  intro E. assert (Hi : (i < n)%nat).
  { rewrite <- (tab_length n f). apply nth_error_Some. rewrite E. discriminate. }
  split; [exact Hi|]. rewrite <- (nth_tab n f i r Hi). symmetry. apply nth_error_nth. exact E.
Qed.
Lemma nth_error_tab_lt {B} n (f : nat -> B) i : (i < n)%nat -> nth_error (tab n f) i = Some (f i).
Proof.
  intro Hi. destruct (nth_error (tab n f) i) as [r|] eqn:E.
  - apply nth_error_tab in E. destruct E as [_ ->]. reflexivity.
  - apply nth_error_None in E. rewrite tab_length in E. lia.
Qed.
Lemma solves_sat a b c d x : solves a b c d x <-> sat 0 (band_rows a b c d) x.
Proof.
  rewrite sat_index, band_rows_length. unfold solves. split.
  - intros [Hl H]. split; [exact Hl|]. intros i r E. apply nth_error_tab in E. destruct E as [Hi ->].
    cbn [r_l r_b r_u r_d]. rnum. rewrite <- (H i Hi). destruct i; cbn [prevx below]; ring.
  - intros [Hl H]. split; [exact Hl|]. intros i Hi.
    specialize (H i _ (nth_error_tab_lt _ _ i Hi)). cbn [r_l r_b r_u r_d] in H. rnum.
    rewrite <- H. destruct i; cbn [prevx below]; ring.
Qed.

(** dominance: [|l| + |u| < b] in every row *)
Definition dom (r : row R) : Prop := Rabs (r_l r) + Rabs (r_u r) < r_b r.
Lemma dom_pivot r cp : dom r -> Rabs cp <= 1 ->
  Rabs (r_u r) < r_b r - r_l r * cp /\ Rabs (r_u r / (r_b r - r_l r * cp)) <= 1.
Proof.
  intros Hd Hc. unfold dom in Hd.
  assert (H1 : Rabs (r_l r * cp) <= Rabs (r_l r)).
  { rewrite Rabs_mult. pose proof (Rabs_pos (r_l r)). nra. }
  assert (H2 : Rabs (r_u r) < r_b r - r_l r * cp).
  { pose proof (Rle_abs (r_l r * cp)). lra. }
  split; [exact H2|].
  pose proof (Rabs_pos (r_u r)).
  unfold Rdiv. rewrite Rabs_mult, (Rabs_right (/ _)).
  - apply (Rmult_le_reg_r (r_b r - r_l r * cp)); [lra|]. rewrite Rmult_assoc, Rinv_l by lra. lra.
  - apply Rle_ge, Rlt_le, Rinv_0_lt_compat. lra.
Qed.
Lemma dom_pivots rows : forall cp, Forall dom rows -> Rabs cp <= 1 -> pivots cp rows.
Proof.
  induction rows as [|r rest IH]; intros cp Hd Hc; [exact I|]. inversion Hd as [|? ? H1 H2]; subst.
  destruct (dom_pivot r cp H1 Hc) as [Hm Hc']. pose proof (Rabs_pos (r_u r)).
  split; [lra|]. apply IH; assumption.
Qed.

(** positivity *)
Definition mrow (r : row R) : Prop := r_l r <= 0 /\ r_u r <= 0 /\ 0 < r_b r + r_l r + r_u r.
Lemma mrow_dom r : mrow r -> dom r.
Proof. intros (H1 & H2 & H3). unfold dom. rewrite !Rabs_left1 by assumption. lra. Qed.
Lemma thomas_nonneg rows : forall cp dp, Forall mrow rows -> Forall (fun r => 0 <= r_d r) rows ->
  -1 <= cp <= 0 -> 0 <= dp -> Forall (Rle 0) (thomas cp dp rows).
Proof.
  induction rows as [|r rest IH]; intros cp dp Hm Hd Hc Hp; [constructor|].
  inversion Hm as [|? ? H1 H2]; subst. inversion Hd as [|? ? H3 H4]; subst. rewrite thomas_cons.
  destruct H1 as (Hl & Hu & Hb).
  assert (Hpos : - r_u r < r_b r - r_l r * cp) by nra.
  assert (Hm0 : 0 < / (r_b r - r_l r * cp)) by (apply Rinv_0_lt_compat; lra).
  assert (Hc' : -1 <= r_u r / (r_b r - r_l r * cp) <= 0).
  { unfold Rdiv. split; [|nra]. apply (Rmult_le_reg_r (r_b r - r_l r * cp)); [lra|].
    rewrite Rmult_assoc, Rinv_l by lra. lra. }
  assert (Hd' : 0 <= (r_d r - r_l r * dp) / (r_b r - r_l r * cp)) by (unfold Rdiv; apply Rmult_le_pos; [nra|lra]).
  specialize (IH _ _ H2 H4 Hc' Hd').
  constructor; [|exact IH].
  destruct (thomas _ _ rest) as [|x1 xs]; cbn [hd]; [lra|]. inversion IH; subst. nra.
Qed.

(** solving is linear in the right-hand side *)
Lemma solves_unique a b c d x y : Forall dom (band_rows a b c d) ->
  solves a b c d x -> solves a b c d y -> x = y.
Proof.
  intros Hd Hx Hy. apply solves_sat in Hx, Hy.
  assert (Hp : pivots 0 (band_rows a b c d)) by (apply dom_pivots; [exact Hd|rewrite Rabs_R0; lra]).
  rewrite (sat_thomas _ 0 0 x Hp), (sat_thomas _ 0 0 y Hp); [reflexivity| |];
    rewrite Rmult_0_l, Rminus_0_r; assumption.
Qed.
Lemma band_solves a b c d : Forall dom (band_rows a b c d) -> solves a b c d (band a b c d).
Proof.
  intro Hd. apply solves_sat. unfold band. rnum.
  assert (Hp : pivots 0 (band_rows a b c d)) by (apply dom_pivots; [exact Hd|rewrite Rabs_R0; lra]).
  pose proof (thomas_sat _ 0 0 Hp) as H. rewrite Rmult_0_l, Rminus_0_r in H. exact H.
Qed.
Lemma band_length (a b c d : list R) : length (band a b c d) = length d.
Proof. unfold band. rewrite thomas_length. apply band_rows_length. Qed.

Lemma pivot_rows (a b c d : list R) : Forall dom (band_rows a b c d) ->
  forall i, (i < length d)%nat -> 0 < pivot a b c i.
Proof.
  intros Hd.
  assert (Hdom : forall i, (i < length d)%nat ->
    Rabs (match i with O => 0 | S j => nth j a 0 end) + Rabs (nth (i + 1) c 0) < nth i b 0).
  { intros i Hi. rewrite Forall_forall in Hd.
    specialize (Hd _ (nth_error_In _ _ (nth_error_tab_lt _ _ i Hi))).
    unfold dom in Hd. cbn [r_l r_b r_u r_d] in Hd. rnum. destruct i; exact Hd. }
  assert (H : forall i, (i < length d)%nat -> 0 < pivot a b c i /\ Rabs (nth (i + 1) c 0 / pivot a b c i) <= 1).
  { induction i as [|i IH]; intro Hi.
    - specialize (Hdom 0%nat Hi). cbn [pivot].
      set (r := {| r_l := 0; r_b := nth 0 b 0; r_u := nth (0 + 1) c 0; r_d := 0 |}).
      assert (Hr : dom r) by exact Hdom.
      destruct (dom_pivot r 0 Hr ltac:(rewrite Rabs_R0; lra)) as [H1 H2].
      cbn [r r_l r_b r_u] in H1, H2. replace (nth 0 b 0 - 0 * 0) with (nth 0 b 0) in H1, H2 by ring.
      pose proof (Rabs_pos (nth (0 + 1) c 0)). split; [lra|exact H2].
    - destruct (IH ltac:(lia)) as [_ Hc]. specialize (Hdom (S i) Hi). cbn [pivot].
      replace (i + 1)%nat with (S i) in Hc by lia.
      set (r := {| r_l := nth i a 0; r_b := nth (S i) b 0; r_u := nth (S i + 1) c 0; r_d := 0 |}).
      assert (Hr : dom r) by exact Hdom.
      destruct (dom_pivot r _ Hr Hc) as [H1 H2].
      cbn [r r_l r_b r_u] in H1, H2. pose proof (Rabs_pos (nth (S i + 1) c 0)). split; [lra|exact H2]. }
  intros i Hi. apply H. exact Hi.
Qed.
