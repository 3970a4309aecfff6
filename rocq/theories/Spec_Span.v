(** * Spec_Span: runs of different lengths whose inputs agree up to a year *)
From Verif Require Import PyBase Num M_Gas M_Carbon M_Driver M_Results Spec_Coupled.
From Verif Require Spec_Forc.

Section Span.
Context {A : Type}.
(** the same parameters with another last year *)
Definition with_end (p : hpam A) (e : Z) : hpam A :=
  {| nystart := nystart p; nyend := e; emstart := emstart p; conc_run := conc_run p; lifetime_mode := lifetime_mode p; just_one := just_one p;
     ref_yr := ref_yr p; qbmb := qbmb p; qo3 := qo3 p; qdirso2 := qdirso2 p; qindso2 := qindso2 p; qbc := qbc p; qoc := qoc p; qh2o_ch4 := qh2o_ch4 p;
     qnmvoc := qnmvoc p; qnh3 := qnh3 p; qnox := qnox p; cl_dict := cl_dict p; br_dict := br_dict p |}.
(** the first [n] entries are the same *)
Definition starts_alike {B} (n : nat) (l l' : list B) : Prop := forall i, (i < n)%nat -> nth_error l i = nth_error l' i.
(** the carbon cycle with another window *)
Definition with_window (cp : cc_pam A) (years : nat) (rs rb : list A) : cc_pam A :=
  {| beta_f := beta_f cp; mixed_carbon := mixed_carbon cp; ml_w_sigmoid := ml_w_sigmoid cp; ml_fracmax := ml_fracmax cp; ml_t_half := ml_t_half cp;
     t_half := t_half cp; w_sigmoid := w_sigmoid cp; t_threshold := t_threshold cp; w_threshold := w_threshold cp; solubility_sens := solubility_sens cp;
     solubility_limit := solubility_limit cp; ml_depth_min := ml_depth_min cp; preind := preind cp; idtm := idtm cp; years_tot := years; r_s := rs; r_b := rb |}.
(** carbon cycles with the same parameters whose decay functions are the same for the steps of the rows up to [M] *)
Definition same_decay (M : nat) (cp cp' : cc_pam A) : Prop :=
  cp' = with_window cp (years_tot cp') (r_s cp') (r_b cp') /\
  starts_alike (S M * idtm cp) (r_s cp) (r_s cp') /\ starts_alike (S M * idtm cp) (r_b cp) (r_b cp').
(** states of the two that are the same, as far as the steps of the rows up to [M] go *)
Record same_carbon (M : nat) (cp : cc_pam A) (h h' : cc_state A) : Prop := {
  sb_y : h_y h = h_y h'; sb_x : h_x h = h_x h'; sb_emp : h_emp h = h_emp h'; sb_ss1 : h_ss1 h = h_ss1 h'; sb_sums : h_sums h = h_sums h';
  sb_sol : h_sol h = h_sol h'; sb_ml : h_ml h = h_ml h';
  sb_s : starts_alike (S M * idtm cp) (h_s h) (h_s h'); sb_d : starts_alike (S M * idtm cp) (h_d h) (h_d h') }.

(** Two scenarios with the settings of their runs: the same parameters except for the last year, both reach row [M], and the same
    inputs up to row [M], as far as they matter until then *)
Record agree_span (M : nat) (sc sc' : scenario A) (c c' : inst A) : Prop := {
  sp_p : c_p sc' = with_end (c_p sc) (nyend (c_p sc'));
  sp_start : d_start c = nystart (c_p sc); sp_start' : d_start c' = nystart (c_p sc); sp_end : d_end c = nyend (c_p sc); sp_end' : d_end c' = nyend (c_p sc');
  sp_rows : (M < d_years c)%nat; sp_rows' : (M < d_years c')%nat;
  sp_coupled : d_rf c = None /\ d_rf c' = None;
  sp_luc : rows_agree M (d_luc c) (d_luc c'); sp_sun : rows_agree M (d_sun c) (d_sun c');
  sp_vn : rows_agree M (d_vn c) (d_vn c'); sp_vs : rows_agree M (d_vs c) (d_vs c');
  sp_conc : agree_on (conc_until (c_p sc) (nystart (c_p sc) + Z.of_nat M)) (c_conc sc) (c_conc sc');
  sp_emis : agree_on (emis_until (c_p sc) (nystart (c_p sc) + Z.of_nat M)) (c_emis sc) (c_emis sc');
  sp_nat_ch4 : agree_on (until (nystart (c_p sc) + Z.of_nat M)) (c_nat_ch4 sc) (c_nat_ch4 sc');
  sp_nat_n2o : agree_on (until (nystart (c_p sc) + Z.of_nat M)) (c_nat_n2o sc) (c_nat_n2o sc');
  sp_pert : forall z, (z <= nystart (c_p sc) + Z.of_nat M)%Z ->
    filter (fun r => Z.eqb (fst (fst r)) z) (Spec_Forc.pert_rows (c_pert sc)) = filter (fun r => Z.eqb (fst (fst r)) z) (Spec_Forc.pert_rows (c_pert sc'));
}.
(** For the year [y], runs to [e] and to [e'] take the ordinary gases from the same file: a run that ends in the year in which
    emissions take over, or before, takes them from the concentrations throughout. *)
Definition same_source (p : hpam A) (e' y : Z) : Prop :=
  conc_run p = true \/ (y < emstart p)%Z \/ ((nyend p <= emstart p)%Z <-> (e' <= emstart p)%Z).
End Span.
