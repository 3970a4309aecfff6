(** * Spec_Gas: vocabulary for statements about concentrations and forcing *)
From Coq Require Import Reals.
From Verif Require Import PyBase Num M_Gas.
Open Scope R_scope.

(** A solution on one year of dc/dt = E/beta - q c. *)
Definition decays (E beta q : R) (c : R -> R) : Prop :=
  forall t, 0 <= t <= 1 -> derivable_pt_lim c t (E / beta - q * c t).

(** Equilibrium concentration of a gas under constant emissions [em]. *)
Definition equilibrium (g : gas R) (em : R) : R := (em + g_nat g) * g_tau1 g / g_beta g.

(** A frame with one row per year from [first] on and complete columns. *)
Definition yearly {A} (f : frame A) (first : Z) (n : nat) : Prop :=
  fr_index f = zrange first n /\ (0 < n)%nat /\ forall c v, dget (fr_cols f) c = Some v -> List.length v = n.
Definition has_columns {A} (f : frame A) (cs : list string) : Prop :=
  forall c, In c cs -> exists v, dget (fr_cols f) c = Some v.

(** Stratospheric ozone: chlorine and bromine loading from (atoms, concentration change) pairs. *)
Definition power17 (x : R) : R := if Rle_dec x 0 then 0 else Rpower x (17 / 10).
Definition signed_power (m d : R) : R := if Rlt_dec d 0 then - power17 (m * - d) else power17 (m * d).
Fixpoint loading (f : R -> R -> R) (l : list (R * R)) : R :=
  match l with [] => 0 | (m, d) :: r => f m d + loading f r end.
Definition ozone_loss (sarf : R) (cl br : list (R * R)) : R :=
  - (5000 / 17377 * (552 / 1000000 * loading signed_power cl + 3048 / 1000 * loading Rmult br)) / 1000 * sarf.
(** The changes of the components of [d] between years [y0] and [y], with their atom counts. *)
Definition changes (conc : frame R) (y0 y : Z) (d : dict Z) (l : list (R * R)) : Prop :=
  Forall2 (fun cm md => fst md = IZR (snd cm) /\ exists c c0,
    fr_get conc (fst cm) y = Ok c /\ fr_get conc (fst cm) y0 = Ok c0 /\ snd md = c - c0) d l.
(** Same atoms, changes at least as large. *)
Definition at_least (l l' : list (R * R)) : Prop := Forall2 (fun x y => fst x = fst y /\ snd x <= snd y) l l'.

(** Years whose ordinary gases are read from the prescribed concentrations. *)
Definition prescribed_year {A} (p : hpam A) (y : Z) : Prop :=
  conc_run p = true \/ (nyend p <= emstart p)%Z \/ (y < emstart p)%Z.

(** What the concentration of a computed gas must satisfy in year [y]: one step from the previous year's value (the
    prescribed value of the year if there is none) with its emissions, natural emissions and loss rate. *)
Definition computed {A} {N : Num A} (p : hpam A) (conc_in emis nat_ch4 nat_n2o : frame A) (y : Z) (st st' : hst A) (t : string) : Prop :=
  forall g, dget (s_gas st) t = Some g -> g_unit g <> "-" ->
  exists prev e n q, (if (y >? nystart p)%Z then conc_get st t (y - 1) else fr_get conc_in t y) = Ok prev /\
    fr_get emis t y = Ok e /\ conc_get st' t y = Ok (scalar_step (g_beta g) q (nadd e n) prev) /\
    (t = "CH4" -> fr_get nat_ch4 "CH4" y = Ok n /\ methane_lifetime p emis g (ndiv (nofZ 1) (g_tau1 g)) prev y = Ok q) /\
    (t = "N2O" -> fr_get nat_n2o "N2O" y = Ok n) /\
    (t <> "CH4" -> q = ndiv (nofZ 1) (g_tau1 g)) /\ (t <> "CH4" -> t <> "N2O" -> n = g_nat g).

(** CO2 comes from the carbon cycle, driven by both emission columns and the natural emissions. *)
Definition co2_done {A} {N : Num A} (S Fb : Type) (co2 : S -> Z -> A -> Fb -> S * A) (emis : frame A)
    (y : Z) (fb : Fb) (cc cc' : S) (st st' : hst A) : Prop :=
  forall gc, dget (s_gas st) "CO2" = Some gc -> g_unit gc <> "-" ->
  exists ff af, fr_get emis "CO2_FF" y = Ok ff /\ fr_get emis "CO2_AFOLU" y = Ok af /\
    let r := co2 cc y (nadd (nadd ff af) (g_nat gc)) fb in cc' = fst r /\ conc_get st' "CO2" y = Ok (snd r).

(** The species of [d] have the same values in year [y]. *)
Definition same_at {A} (c c' : frame A) (y : Z) (d : dict Z) : Prop := forall k, In k (dkeys d) -> fr_get c k y = fr_get c' k y.
