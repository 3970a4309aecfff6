(** * Spec_Share: emissions of the years of a run, given concentrations and the airborne share (C106) *)
From Coq Require Import Reals.
From Verif Require Import PyBase Num M_Gas.

(** the fossil and land-use emissions of [n] years, natural emissions not included *)
Definition emitted (emis : frame R) (start : Z) (n : nat) (em : list R) : Prop :=
  List.length em = n /\
  forall k, (k < n)%nat -> exists ff af, fr_get emis "CO2_FF" (start + Z.of_nat k) = Ok ff /\ fr_get emis "CO2_AFOLU" (start + Z.of_nat k) = Ok af /\
    nth k em 0%R = (ff + af)%R.
(** column [af] is the share of the emissions [em] since the first year that the concentration [conc] above [pre] stands for;
    one year in which the emissions so far sum to zero makes every entry [nan] *)
Definition airborne_share (nan pre : R) (em conc af : list R) : Prop :=
  let sofar k := fold_right Rplus 0%R (firstn (S k) em) in
  List.length af = List.length em /\
  forall k, (k < List.length em)%nat ->
    ((exists j, (j < List.length em)%nat /\ sofar j = 0%R) /\ nth k af 0%R = nan) \/
    ((forall j, (j < List.length em)%nat -> sofar j <> 0%R) /\ nth k af 0%R = (2123 / 1000 * (nth k conc 0 - pre) / sofar k)%R).
(** the concentrations of [n] years in the concentration input *)
Definition given_conc {A} (conc_in : frame A) (t : string) (start : Z) (n : nat) (conc : list A) : Prop :=
  List.length conc = n /\ forall k v, nth_error conc k = Some v -> fr_get conc_in t (start + Z.of_nat k) = Ok v.
