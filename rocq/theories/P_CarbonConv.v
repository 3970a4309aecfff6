(** * P_CarbonConv: the ocean memory with its constants as numbers (C34) *)
From Coq Require Import Reals List Lra Lia.
From Verif Require Import Num M_Carbon Spec_UDM Spec_Carbon P_CarbonMisc.
Open Scope R_scope.
Lemma conv_number : PPMKG_TO_UMOL_PER_VOL * GE_COEFF = 1722 * 10 ^ 14 / (362 * 10 ^ 12 * (906 / 100)).
Proof.
  assert (P : forall z n, IZR (z * 10 ^ Z.of_nat n) = IZR z * 10 ^ n) by (intros; rewrite mult_IZR, <- pow_IZR; reflexivity).
  assert (E1 : PPMKG_TO_UMOL_PER_VOL = 1722 * 10 ^ 14) by exact (P 1722%Z 14%nat).
  assert (E2 : CC_OCEAN_AREA = 362 * 10 ^ 12) by exact (P 362%Z 12%nat).
  unfold GE_COEFF. rewrite E1, E2. assert (N : 362 * 10 ^ 12 <> 0) by (apply Rmult_integral_contrapositive_currified; [lra|apply pow_nonzero; lra]).
  revert N. generalize (1722 * 10 ^ 14) (362 * 10 ^ 12). intros a b N. rnum. rdec. field. exact N.
Qed.
Lemma z_number p s ml it : (it < length s)%nat -> (it <= length (r_s p))%nat ->
  z_co2 p s ml it = 1722 * 10 ^ 14 / (362 * 10 ^ 12 * (906 / 100)) * (1 / INR (idtm p)) / ml * sumn (fun j => ocean_weight (r_s p) it j * nth j s 0) (length s).
Proof. rewrite <- conv_number. apply z_eq. Qed.
