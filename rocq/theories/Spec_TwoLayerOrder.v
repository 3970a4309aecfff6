(** * Spec_TwoLayerOrder: order between years of the two-layer model *)
From Coq Require Import Reals List.
From Verif Require Import M_TwoLayer Spec_TwoLayer.
Open Scope R_scope.

(** mean forcing of a year with its volcanic part, feedback parameter of a year *)
Definition year_forcing (i : tl_in R) : R := (i_nh i + i_sh i) / 2 + (rmean (i_vn i) + rmean (i_vs i)).
Definition year_feedback (p : tl_pam R) (i : tl_in R) : R := tl_lambda p + i_w i * tl_delta p.
Record less_forced (i i' : tl_in R) : Prop := {
  lf_len : length (i_vn i) = length (i_vs i); lf_len' : length (i_vn i') = length (i_vs i');
  lf_forc : year_forcing i <= year_forcing i'; lf_weight : i_w i = i_w i' }.
(** a year that does not overshoot: the layers lose at most what they hold *)
Record no_overshoot (p : tl_pam R) (i : tl_in R) : Prop := {
  no_feedback : 0 < year_feedback p i; no_k : 0 <= tl_k p; no_eff : 0 <= tl_eff p;
  no_mixed : year_feedback p i + tl_k p * tl_eff p <= capacity (tl_mixed p);
  no_deep : tl_k p <= capacity (tl_deep p) }.
Record layers_le (s s' : tl_state R) : Prop := { ll_fast : temp_fast s <= temp_fast s'; ll_slow : temp_slow s <= temp_slow s' }.
Record out_le (o o' : tl_out R) : Prop := {
  ol_fast : o_fast o <= o_fast o'; ol_slow : o_slow o <= o_slow o'; ol_air : o_dtemp o <= o_dtemp o';
  ol_mixed : o_OHC_MIXED o <= o_OHC_MIXED o'; ol_deep : o_OHC_DEEP o <= o_OHC_DEEP o';
  ol_tot : o_OHCTOT o <= o_OHCTOT o'; ol_700 : o_OHC700 o <= o_OHC700 o' }.
(** each element related to the next *)
Fixpoint chain {T} (r : T -> T -> Prop) (l : list T) : Prop :=
  match l with x :: ((y :: _) as l') => r x y /\ chain r l' | _ => True end.
