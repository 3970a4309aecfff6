(** * M_CarbonBack: back-calculation of emissions,
      /repo/src/ciceroscm/carbon_cycle/carbon_cycle_abstract.py 157-355,
      carbon_cycle_mod.py 755-793 *)
From Coq Require Import ZArith List Bool.
From Verif Require Import Num M_Carbon.
Import ListNotations.

Section Bisect.
Context {A : Type} {N : Num A}.
Local Open Scope num_scope.

(** The concrete carbon model is abstract here, as in the base class: [S] its object state,
    [call s em] is [co2em2conc(nystart + yrix, em, feedback_dict)] for the year in question,
    [restore s0 s] is [_set_co2_hold(hold_dict)] with the values [_get_co2_hold_values] gave in [s0]. *)
Variable S : Type.
Variable call : S -> A -> S * A.
Variable restore : S -> S -> S.

(** carbon_cycle_abstract.py 205-224: the while loop; [n] is [maxit - iteration].
    Returns the final guess, the object and the number of iterations done. *)
Fixpoint bisect (n : nat) (s0 s : S) (target rtol mx mn guess est : A) (done : nat) {struct n} : A * S * nat :=
  if negb (nltb rtol (nabs (target - est) / target)) then (guess, s, done)
  else match n with
       | O => (guess, s, done)
       | Datatypes.S n' =>
           let '(mx', mn', g') :=
             if nltb target est then (guess, mn, (guess + mn) / #2)
             else (mx, guess, (guess + mx) / #2) in
           let '(s', est') := call (restore s0 s) g' in
           bisect n' s0 s' target rtol mx' mn' g' est' (Datatypes.S done)
       end.

(** carbon_cycle_abstract.py 157-225: [_guess_emissions_iteration]; np.mean of a pair *)
Definition guess_emissions (s0 : S) (target : A) (mxmn : A * A) (rtol : A) (maxit : nat) : A * S * nat :=
  let '(mx, mn) := mxmn in
  let guess := (mn + mx) / #2 in
  let '(s, est) := call s0 guess in
  bisect maxit s0 s target rtol mx mn guess est 0.
End Bisect.

Section Back.
Context {A : Type} {N : Num A}.
Local Open Scope num_scope.

(** carbon_cycle_abstract.py 227-267 with [em_width] given; np.min / np.max of a pair *)
Definition initial_max_min_guess (now zero em_width : A) : A * A :=
  let change := now - zero in
  let a := change * PPM_CO2_TO_PG_C + #8 * em_width in
  let b := change * PPM_CO2_TO_PG_C - #4 * em_width in
  let mn := nmin a b in
  let mx := nmax a b in
  if nltb (mx - mn) #1 then (mx + #1, mn - #1) else (mx, mn).

(** rtol = 1e-7, maxit = 100: defaults of [_guess_emissions_iteration] *)
Definition RTOL : A := dec 1 7.
Definition MAXIT : nat := 100.

Variable p : cc_pam A.

(** carbon_cycle_abstract.py 304-355 for the default carbon cycle: [make_guess_emsize_estimates]
    (carbon_cycle_mod.py 755-793) gives one width per sub-yearly step. The object keeps whatever hold values
    it has at the start. The iteration counts are returned here in addition to the emissions. *)
Fixpoint back_years (h : cc_state A) (i : nat) (prev : A) (widths : list A) (series : list (A * A)) {struct series}
  : cc_state A * list (A * nat) :=
  match series with
  | [] => (h, [])
  | (conc, dtemp) :: r =>
      let '(em, h', done) :=
        guess_emissions (cc_state A) (fun s em => co2em2conc p s i em dtemp)
          (fun s0 s => set_hold s (get_hold s0)) h conc
          (initial_max_min_guess conc prev (nth (i * idtm p) widths #0)) RTOL MAXIT in
      let '(h2, ems) := back_years h' (Datatypes.S i) conc widths r in
      (h2, (em, done) :: ems)
  end.
Definition back_calculate (h : cc_state A) (series : list (A * A)) : cc_state A * list (A * nat) :=
  back_years h 0 (preind p) (ffer_series_conc p (map fst series) (map snd series)) series.
End Back.
