(** * Spec_Rerun: what earlier runs leave in an instance, and when two runs count as equal (C96) *)
From Verif Require Import PyBase Num M_Gas M_Forcing M_Carbon M_Driver M_Results M_BoxRun Spec_Driver.

Section Rerun.
Context {A : Type} {N : Num A}.
(** Two entries of the gas table for the component [t] are equal, except that CH4 and N2O may have other natural emissions. *)
Record same_gas (t : string) (g g' : gas A) : Prop := {
  sg_unit : g_unit g = g_unit g'; sg_beta : g_beta g = g_beta g'; sg_alpha : g_alpha g = g_alpha g'; sg_tau1 : g_tau1 g = g_tau1 g';
  sg_tau2 : g_tau2 g = g_tau2 g'; sg_tau3 : g_tau3 g = g_tau3 g'; sg_sarf : g_sarf g = g_sarf g';
  sg_nat : t <> "CH4" -> t <> "N2O" -> g_nat g = g_nat g' }.
Definition same_gases (gt gt' : dict (gas A)) : Prop := Forall2 (fun a b => fst a = fst b /\ same_gas (fst a) (snd a) (snd b)) gt gt'.

(** The gas table and the results of an instance with gas table [gt] after any number of runs, completed or not: any parameters,
    of the thermal model too, any carbon cycle in any state, any instance data; only the names of the outputs are always the same. *)
Inductive earlier_runs (names : dict string) (gt : dict (gas A)) : dict (gas A) -> results A -> Prop :=
| no_run : earlier_runs names gt gt []
| one_more_run : forall T (th : thermal A T) gt1 r1 nan CC year data sc c t0 (cc0 : CC) as_dict carbon,
    t_names th = names -> earlier_runs names gt gt1 r1 ->
    let o := any_run nan CC year data sc th c gt1 t0 cc0 as_dict carbon r1 in
    earlier_runs names gt (s_gas (snd (o_handler o))) (o_results o).

(** The second outcome has everything the first one has. *)
Definition same_outcome {H H'} (o : outcome A H) (o' : outcome A H') : Prop :=
  o_exn o = o_exn o' /\ o_files o = o_files o' /\ forall k v, dget (o_results o) k = Some v -> dget (o_results o') k = Some v.

(** A carbon cycle forgets: from states related by [E] it gives the same concentrations and the same frame. *)
Record forgets {CC} (year : CC -> nat -> A -> A -> CC * A) (data : CC -> hst A -> dict (list A) -> result (CC * frame A)) (E : CC -> CC -> Prop) : Prop := {
  fg_year : forall a b n em dt, E a b -> snd (year a n em dt) = snd (year b n em dt) /\ E (fst (year a n em dt)) (fst (year b n em dt));
  fg_data : forall a b st st' series, E a b -> s_conc st = s_conc st' -> rbind (data a st series) (fun r => Ok (snd r)) = rbind (data b st' series) (fun r => Ok (snd r)) }.
(** States of the default carbon cycle that differ only in the two temperature factors. *)
Definition same_hold (a b : cc_state A) : Prop :=
  h_y a = h_y b /\ h_x a = h_x b /\ h_s a = h_s b /\ h_emp a = h_emp b /\ h_d a = h_d b /\ h_ss1 a = h_ss1 b /\ h_sums a = h_sums b.
End Rerun.
