From Coq Require Import Reals List Lra Lia.
From Verif Require Import Num M_TwoLayer Spec_TwoLayer Spec_TwoLayerRuns Spec_TwoLayerOrder P_TwoLayer.
Import ListNotations.
Open Scope R_scope.

Lemma j22 : 0 < joule22. Proof. unfold joule22. lra. Qed.
Lemma mul_le a b c : 0 <= c -> a <= b -> a * c <= b * c.
Proof. intros C L. apply Rmult_le_compat_r; assumption. Qed.
Lemma ohc700_le (p : tl_pam R) m m' d d' : 0 < tl_mixed p -> 0 < tl_deep p -> m <= m' -> d <= d' -> tl_ohc700 p m d <= tl_ohc700 p m' d'.
Proof.
  intros P D M L. unfold tl_ohc700. rnum. destruct (Rle_dec 700 (tl_mixed p)) as [H|H].
  - apply mul_le; [|exact M]. apply Rlt_le, Rdiv_lt_0_compat; lra.
  - assert (0 <= (700 - tl_mixed p) / tl_deep p) by (apply Rlt_le, Rdiv_lt_0_compat; lra).
    match goal with |- _ + _ * ?f <= _ => assert (0 <= f) by (destruct (Rlt_dec 1 ((700 - tl_mixed p) / tl_deep p)); lra) end. nra.
Qed.
Lemma mixed_pos d : 0 < capacity d -> 0 < d.
Proof. unfold capacity. intros H. destruct (Rlt_or_le 0 d) as [L|L]; [exact L|]. exfalso. assert (d * 1000 * 4184 / (86400 * 365) <= 0) by (unfold Rdiv; nra). lra. Qed.

Section S.
Variable p : tl_pam R.
Hypothesis FOA : 0 <= (tl_foan p + tl_foas p) / 2 <= 1.

Lemma year_le s s' i i' : no_overshoot p i -> 0 < tl_k p -> less_forced i i' -> layers_le s s' ->
  layers_le (fst (tl_year p s i)) (fst (tl_year p s' i')) /\ out_le (snd (tl_year p s i)) (snd (tl_year p s' i')).
Proof.
  intros [B1 B2 B3 B4 B5] K [L1 L2 L3 L4] [S1 S2].
  assert (FF : in_forc i <= in_forc i') by (unfold in_forc; rewrite !forc_eq by assumption; exact L3).
  assert (LL : in_lambda p i' = in_lambda p i) by (unfold in_lambda; rewrite L4; reflexivity).
  destruct (year_out p s i) as (A1 & A2 & A3 & A4 & A5 & _ & A7 & A8 & A9 & A10 & _ & A12).
  destruct (year_out p s' i') as (C1 & C2 & C3 & C4 & C5 & _ & C7 & C8 & C9 & C10 & _ & C12).
  fold (in_lambda p i) in *. change (year_feedback p i) with (in_lambda p i) in *.
  rewrite LL in *. set (lam := in_lambda p i) in *. set (cf := capacity (tl_mixed p)) in *. set (cs := capacity (tl_deep p)) in *.
  set (F := in_forc i) in *. set (F' := in_forc i') in *.
  assert (CF : 0 < cf) by nra. assert (CS : 0 < cs) by lra.
  assert (T1 : temp_fast s + (F - temp_fast s * lam - tl_k p * tl_eff p * (temp_fast s - temp_slow s)) / cf <=
               temp_fast s' + (F' - temp_fast s' * lam - tl_k p * tl_eff p * (temp_fast s' - temp_slow s')) / cf).
  { apply Rmult_le_reg_r with cf; [exact CF|].
    replace ((temp_fast s + (F - temp_fast s * lam - tl_k p * tl_eff p * (temp_fast s - temp_slow s)) / cf) * cf)
      with (F + (cf - (lam + tl_k p * tl_eff p)) * temp_fast s + tl_k p * tl_eff p * temp_slow s) by (field; lra).
    replace ((temp_fast s' + (F' - temp_fast s' * lam - tl_k p * tl_eff p * (temp_fast s' - temp_slow s')) / cf) * cf)
      with (F' + (cf - (lam + tl_k p * tl_eff p)) * temp_fast s' + tl_k p * tl_eff p * temp_slow s') by (field; lra).
    assert (0 <= tl_k p * tl_eff p) by nra.
    assert ((cf - (lam + tl_k p * tl_eff p)) * temp_fast s <= (cf - (lam + tl_k p * tl_eff p)) * temp_fast s') by (apply Rmult_le_compat_l; lra).
    assert (tl_k p * tl_eff p * temp_slow s <= tl_k p * tl_eff p * temp_slow s') by (apply Rmult_le_compat_l; lra). lra. }
  assert (T2 : temp_slow s + tl_k p * (temp_fast s - temp_slow s) / cs <= temp_slow s' + tl_k p * (temp_fast s' - temp_slow s') / cs).
  { apply Rmult_le_reg_r with cs; [exact CS|].
    replace ((temp_slow s + tl_k p * (temp_fast s - temp_slow s) / cs) * cs) with ((cs - tl_k p) * temp_slow s + tl_k p * temp_fast s) by (field; lra).
    replace ((temp_slow s' + tl_k p * (temp_fast s' - temp_slow s') / cs) * cs) with ((cs - tl_k p) * temp_slow s' + tl_k p * temp_fast s') by (field; lra).
    assert ((cs - tl_k p) * temp_slow s <= (cs - tl_k p) * temp_slow s') by (apply Rmult_le_compat_l; lra).
    assert (tl_k p * temp_fast s <= tl_k p * temp_fast s') by (apply Rmult_le_compat_l; lra). lra. }
  pose proof j22 as J.
  assert (M1 : o_OHC_MIXED (snd (tl_year p s i)) <= o_OHC_MIXED (snd (tl_year p s' i'))).
  { rewrite A8, C8. apply mul_le; [lra|]. apply mul_le; [lra|exact T1]. }
  assert (M2 : o_OHC_DEEP (snd (tl_year p s i)) <= o_OHC_DEEP (snd (tl_year p s' i'))).
  { rewrite A9, C9. apply mul_le; [lra|]. apply mul_le; [lra|exact T2]. }
  split; constructor.
  - rewrite A1, C1. exact T1.
  - rewrite A2, C2. exact T2.
  - rewrite A4, C4. exact T1.
  - rewrite A5, C5. exact T2.
  - rewrite A7, C7. set (q := (tl_foan p + tl_foas p) / 2) in *.
    assert (F / lam <= F' / lam) by (apply mul_le; [apply Rlt_le, Rinv_0_lt_compat; lra|exact FF]).
    assert (HQ : forall t, t * (tl_foan p + tl_foas p) / 2 = t * q) by (intros t; unfold q; field). rewrite !HQ.
    assert (T3 := mul_le _ _ q (proj1 FOA) T1).
    assert (F / lam * (1 - q) <= F' / lam * (1 - q)) by (apply mul_le; lra). lra.
  - exact M1.
  - exact M2.
  - rewrite A10, C10. apply mul_le; [lra|]. apply Rplus_le_compat; (apply mul_le; [lra|assumption]).
  - rewrite A12, C12. rewrite A8, C8 in M1. rewrite A9, C9 in M2.
    apply ohc700_le; try assumption; apply mixed_pos; assumption.
Qed.

Lemma order ins : 0 < tl_k p -> forall ins' s s', Forall (no_overshoot p) ins -> Forall2 less_forced ins ins' -> layers_le s s' ->
  Forall2 out_le (tl_run p s ins) (tl_run p s' ins').
Proof.
  intros K. induction ins as [|i r IH]; intros ins' s s' B L S; inversion L as [|? i' ? r' L1 L2 U V]; subst; [constructor|].
  inversion B as [|? ? B1 B2 U]; subst. destruct (year_le s s' i i' B1 K L1 S) as [S1 O1]. cbn [tl_run].
  destruct (tl_year p s i) as [t o]. destruct (tl_year p s' i') as [t' o']. constructor; [exact O1|]. apply IH; assumption.
Qed.

(** a run compared with itself a year later *)
Lemma rising ins : 0 < tl_k p -> forall s i0, Forall (no_overshoot p) (i0 :: ins) -> chain less_forced (i0 :: ins) ->
  layers_le s (fst (tl_year p s i0)) -> chain out_le (tl_run p s (i0 :: ins)).
Proof.
  intros K. induction ins as [|i r IH]; intros s i0 B C L.
  - cbn [tl_run]. destruct (tl_year p s i0). exact I.
  - inversion B as [|? ? B1 B2 U]; subst. destruct C as [C1 C2].
    destruct (year_le s (fst (tl_year p s i0)) i0 i B1 K C1 L) as [S1 O1].
    cbn [tl_run]. destruct (tl_year p s i0) as [t o]. cbn [fst snd] in *. specialize (IH t i B2 C2 S1). cbn [tl_run] in IH.
    destruct (tl_year p t i) as [t' o']. cbn [fst snd] in *. cbn [chain]. split; [exact O1|exact IH].
Qed.
End S.

Lemma c94_order p ins ins' s s' : 0 <= (tl_foan p + tl_foas p) / 2 <= 1 -> 0 < tl_k p -> Forall (no_overshoot p) ins -> Forall2 less_forced ins ins' ->
  layers_le s s' -> Forall2 out_le (tl_run p s ins) (tl_run p s' ins').
Proof. intros F K B L S. apply order; assumption. Qed.
Lemma c94_rising p ins : 0 <= (tl_foan p + tl_foas p) / 2 <= 1 -> 0 < tl_k p -> Forall (no_overshoot p) ins -> chain less_forced ins ->
  match ins with i :: _ => length (i_vn i) = length (i_vs i) /\ 0 <= year_forcing i | [] => True end -> chain out_le (tl_run p (tl_init p) ins).
Proof.
  intros F K B C Z. destruct ins as [|i r]; [exact I|]. destruct Z as [Z1 Z2]. apply rising; try assumption.
  destruct (year_out p (tl_init p) i) as (A1 & A2 & _). inversion B as [|? ? [B1 B2 B3 B4 B5] _]; subst.
  assert (CF : 0 < capacity (tl_mixed p)) by nra.
  constructor; [rewrite A1|rewrite A2]; unfold tl_init; cbn [temp_fast temp_slow]; rnum.
  - assert (0 <= in_forc i / capacity (tl_mixed p)).
    { unfold Rdiv. apply Rmult_le_pos; [|apply Rlt_le, Rinv_0_lt_compat; exact CF]. unfold in_forc. rewrite forc_eq by assumption. exact Z2. }
    replace (in_forc i - 0 * in_lambda p i - tl_k p * tl_eff p * (0 - 0)) with (in_forc i) by ring. lra.
  - replace (tl_k p * (0 - 0) / capacity (tl_deep p)) with 0 by (unfold Rdiv; ring). lra.
Qed.
