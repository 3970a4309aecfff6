(** * M_RFuns: /repo/src/ciceroscm/carbon_cycle/rfuns.py 128-291 and
      /repo/src/ciceroscm/pub_utils.py 46-101, carbon_cycle_mod.py 278-324 *)
From Coq Require Import ZArith List Bool.
From Verif Require Import Num.
Import ListNotations.

Section RFuns.
Context {A : Type} {N : Num A}.
Local Open Scope num_scope.

(** rfuns.py 128-153: [rb_function]; [time = it / idtm] *)
Definition rb_function (it idtm : A) : A :=
  let time := it / idtm in
  dec 70211 5 * nexp (- (dec 35 2) * time)
  + dec 134141 7 * nexp (- time / #20)
  - dec 71846 5 * nexp (- (#55) * time / #120)
  + dec 29323 7 * nexp (- time / #100).

(** rfuns.py 156-199: [rb_function2] at one time; column [i] of [dmat] and the sum over columns *)
Definition rb_function2 (it : A) (rb_coef rb_tim : list A) (idtm : A) : A :=
  let time := it / idtm in
  let total := nsum rb_coef in
  nsum (map2 (fun c tim => time * (c / total / (tim * tim)) * nexp (- time / tim)) rb_coef rb_tim).

(** rfuns.py 202-243: [rs_function] *)
Definition rs_function (it idtm : A) : A :=
  let time := it / idtm in
  if nltb time #2 then
    dec 12935 5
    + dec 21898 5 * nexp (- time / dec 34569 6)
    + dec 17003 5 * nexp (- time / dec 26936 5)
    + dec 24071 5 * nexp (- time / dec 96083 5)
    + dec 24093 5 * nexp (- time / dec 49792 4)
  else
    dec 22936 6
    + dec 24278 5 * nexp (- time / dec 12679 4)
    + dec 13963 5 * nexp (- time / dec 52528 4)
    + dec 89318 6 * nexp (- time / dec 18601 3)
    + dec 3782 5 * nexp (- time / dec 68736 3)
    + dec 35549 6 * nexp (- time / dec 2323 1).

(** rfuns.py 249-291: [rs_function2] at one time; row 0 is the constant, row [i] uses [rs_tim[i-1]] *)
Definition rs_function2 (it : A) (rs_coef rs_tim : list A) (idtm : A) : A :=
  let time := it / idtm in
  let total := nsum rs_coef in
  match rs_coef with
  | [] => #0
  | c0 :: rest =>
      nsum (c0 / total :: map2 (fun c tim => c / total * nexp (- time / tim)) rest rs_tim)
  end.

(** pub_utils.py 46-101: [_check_array_consistency]; [true] when nothing is raised *)
Definition check_array_consistency (coeffs timescales : list A) (for_rs : bool) : bool :=
  (if for_rs then Nat.eqb (length coeffs) (length timescales + 1)
   else Nat.eqb (length coeffs) (length timescales))
  && negb (existsb (fun x => nltb x #0) timescales)
  && negb (existsb (fun x => nltb x #0) coeffs).

(** carbon_cycle/carbon_cycle_mod.py 278-324: [precalc_r_functions], the two decay functions at every step of the window; [rs], [rb]
    are coefficients and time scales where given, [None] is the ValueError for inconsistent ones *)
Definition precalc_r_functions (idtm years : nat) (rs rb : option (list A * list A)) : option (list A * list A) :=
  let steps f := tab (idtm * years) (fun i => f (nofZ (Z.of_nat i)) (nofZ (Z.of_nat idtm))) in
  match match rs with
        | None => Some (steps rs_function)
        | Some (coeffs, timescales) =>
            if check_array_consistency coeffs timescales true then Some (steps (fun it k => rs_function2 it coeffs timescales k)) else None
        end,
        match rb with
        | None => Some (steps rb_function)
        | Some (coeffs, timescales) =>
            if check_array_consistency coeffs timescales false then Some (steps (fun it k => rb_function2 it coeffs timescales k)) else None
        end with
  | Some s, Some b => Some (s, b)
  | _, _ => None
  end.
End RFuns.
